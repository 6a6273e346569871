(* Proofs for C97 *)
From Coq Require Import ZArith List Bool Sorted Permutation Lia.
From Verif Require Import Base String_spec Fnmatch_model Fnmatch_spec Fnmatch_proofs Glob_model Glob_spec.
Import ListNotations.
Open Scope Z_scope.

(* what the model needs of the names *)
Definition tidy (dir : list Z -> list (list Z * bool)) : Prop :=
  forall cur, NoDup (map fst (dir cur)) /\ forall n d, In (n, d) (dir cur) -> n <> [] /\ ~ In 47 n /\ hd 0 n <> 46.
Lemma eqb_spec l : forall k, reflect (l = k) (eqb l k).
Proof.
  induction l as [|a l IH]; intros [|b k]; cbn; try (constructor; congruence).
  destruct (Z.eqb_spec a b) as [->|]; cbn; [|constructor; congruence]. destruct (IH k) as [->|]; constructor; congruence.
Qed.
Lemma section_plain ne c : forall b acc rest, ~ In 47 c -> (~ In 92 c \/ ne = true) ->
  section ne b false (c ++ rest) acc = section ne (fold_left (fun b x => if x =? 91 then true else if x =? 93 then false else b) c b) false rest (rev c ++ acc).
Proof.
  induction c as [|x c IH]; intros b acc rest N E; cbn [app rev fold_left]; [reflexivity|]. cbn [section].
  destruct (Z.eqb_spec x 47) as [->|N1]; [elim N; left; reflexivity|]. cbn [andb negb]. rewrite !andb_true_r.
  assert (EF : (x =? 92) && negb (if x =? 91 then true else if x =? 93 then false else b) && true && negb ne = false).
  { destruct E as [E| ->]; [|rewrite andb_false_r; reflexivity]. destruct (Z.eqb_spec x 92) as [->|]; [elim E; left; reflexivity|reflexivity]. }
  rewrite andb_true_r in EF. rewrite EF. rewrite IH.
  - rewrite <- app_assoc. reflexivity.
  - intro I. apply N. right. exact I.
  - destruct E as [E|E]; [left; intro I; apply E; right; exact I|right; exact E].
Qed.
Lemma strip_plain c r : ~ In 47 c -> c <> [] -> strip (c ++ r) = c ++ r.
Proof.
  intros N E. destruct c as [|x c]; [contradiction|]. cbn. destruct (Z.eq_dec x 47) as [->|H]; [elim N; left; reflexivity|].
  destruct x as [|x|x]; try reflexivity. do 6 (destruct x as [x|x|]; try reflexivity). contradiction.
Qed.
Lemma section_comp ne c rest : simple c -> rest = [] \/ (exists r, rest = 47 :: r) ->
  section ne false false (strip (c ++ rest)) [] = (c, match rest with [] => [] | _ :: r => r end).
Proof.
  intros (C1 & _ & _ & C2 & C3) H. rewrite strip_plain by assumption. rewrite section_plain by auto. rewrite app_nil_r.
  destruct H as [->|(r & ->)]; cbn; rewrite rev_involutive; reflexivity.
Qed.

Lemma walk_last_inv dir cm cur c p d : walk dir cm cur [c] p d -> exists n, In (n, d) (dir cur) /\ cm c n /\ under cur n p.
Proof. intro W. inversion W; subst. eauto. Qed.
Lemma walk_more_inv dir cm cur c c2 cs p d : walk dir cm cur (c :: c2 :: cs) p d ->
  exists n q, In (n, true) (dir cur) /\ cm c n /\ under cur n q /\ walk dir cm q (c2 :: cs) p d.
Proof. intro W. inversion W; subst. eauto 6. Qed.
Section S.
Variable dir : list Z -> list (list Z * bool).
Variable ls : list Z -> option (list (list Z * bool)).
Variable fnm : bool -> bool -> list Z -> list Z -> bool.
Variable fl : flags.
Hypothesis DIR : forall cur, dir cur = match ls cur with Some l => l | None => [] end.
Hypothesis TD : tidy dir.
Hypothesis NOERR : g_err fl = false.
Definition cm (c n : list Z) : Prop := fnm (g_noescape fl) (g_period fl) c n = true.
Definition nf : list Z -> bool := fun _ => false.

(* where names may be looked up: not ending in a slash except for the root *)
Definition place (cur : list Z) : Prop := cur = [] \/ cur = [47] \/ (cur <> [] /\ cur <> [47] /\ ends_slash cur = false).
Lemma ends_snoc p x : ends_slash (p ++ [x]) = (x =? 47).
Proof.
  unfold ends_slash. rewrite rev_app_distr. cbn. destruct (Z.eqb_spec x 47) as [->|H]; [reflexivity|].
  destruct x as [|x|x]; try reflexivity. do 6 (destruct x as [x|x|]; try reflexivity). contradiction.
Qed.
Lemma join_under cur n : place cur -> under cur n (join cur n).
Proof.
  intros [->|[->|(A & B & C)]]; [constructor|constructor|]. unfold join. destruct (eqb_spec cur []); [contradiction|]. rewrite C. cbn.
  rewrite <- app_assoc. constructor; assumption.
Qed.
Lemma under_fun cur n p q : under cur n p -> under cur n q -> p = q.
Proof. intros A B. inversion A; subst; inversion B; subst; try reflexivity; contradiction. Qed.
Lemma join_place cur n : place cur -> n <> [] -> ~ In 47 n -> place (join cur n).
Proof.
  intros P N S. destruct (exists_last N) as (k & x & E).
  assert (X : x <> 47) by (intro H; apply S; rewrite E, H; apply in_or_app; right; left; reflexivity).
  pose proof (join_under cur n P) as U. right. right.
  assert (ES : exists a, join cur n = a ++ [x]).
  { subst n. unfold join. rewrite app_assoc. eexists. reflexivity. }
  destruct ES as (a & EA). rewrite EA. split; [destruct a; discriminate|]. split.
  - destruct a as [|y a]; [intro H; injection H as H; contradiction|]. destruct a; discriminate.
  - rewrite ends_snoc. destruct (Z.eqb_spec x 47); [contradiction|reflexivity].
Qed.
(* paths below a name *)
Definition below (cur n p : list Z) : Prop := exists r, p = join cur n ++ r /\ (r = [] \/ exists r', r = 47 :: r').
Lemma nosplit n : forall n' r r', ~ In 47 n -> ~ In 47 n' -> (r = [] \/ exists t, r = 47 :: t) -> (r' = [] \/ exists t, r' = 47 :: t) ->
  n ++ r = n' ++ r' -> n = n'.
Proof.
  induction n as [|x n IH]; intros [|y n'] r r' A B C D E; cbn in E.
  - reflexivity.
  - destruct C as [->|(t & ->)]; [discriminate|]. injection E as E _. elim B. left. congruence.
  - destruct D as [->|(t & ->)]; [discriminate|]. injection E as E _. elim A. left. congruence.
  - injection E as -> E. f_equal. apply (IH n' r r'); auto; intro I; [apply A|apply B]; right; exact I.
Qed.
Lemma below_fun cur n n' p : ~ In 47 n -> ~ In 47 n' -> below cur n p -> below cur n' p -> n = n'.
Proof.
  intros A B (r & -> & R) (r' & E & R'). unfold join in E. rewrite <- !app_assoc in E. apply app_inv_head in E. exact (nosplit n n' r r' A B R R' E).
Qed.
Lemma below_trans cur n m p : place cur -> n <> [] -> ~ In 47 n -> below (join cur n) m p -> below cur n p.
Proof.
  intros P N S (r & -> & R). pose proof (join_place cur n P N S) as PJ. 
  pose proof (join_under (join cur n) m PJ) as U. exists (47 :: m ++ r). split; [|right; eexists; reflexivity].
  assert (E : join (join cur n) m = join cur n ++ 47 :: m).
  { destruct PJ as [E|[E|(A & B & C)]].
    - exfalso. unfold join in E. apply app_eq_nil in E. tauto.
    - exfalso. destruct (exists_last N) as (k & x & EX). subst n. unfold join in E. rewrite app_assoc in E.
      apply (f_equal (fun l => last l 0)) in E. rewrite last_last in E. cbn in E. apply S. subst x. apply in_or_app. right. left. reflexivity.
    - inversion U as [n0 H1 H2 H3|n0 H1 H2 H3|cur0 n0 H1 H2 H3 H4 H5].
      + rewrite <- H1 in A. contradiction.
      + rewrite <- H1 in B. contradiction.
      + reflexivity. }
  rewrite E, <- app_assoc. reflexivity.
Qed.

Lemma entries_last cur c : place cur -> forall l, NoDup (map fst l) -> (forall n d, In (n, d) l -> ~ In 47 n) ->
  exists r, entries fnm fl cur c [] (fun _ => Abort) l = Paths r /\ NoDup r /\
    (forall p, In p r -> exists n d, In (n, d) l /\ below cur n p) /\
    forall p, In p r <-> exists n d, In (n, d) l /\ cm c n /\ p = join cur n ++ (if g_mark fl && d then [47] else []).
Proof.
  intros P l. induction l as [|(n & d) l IH]; intros ND NS; cbn [entries].
  - exists []. split; [reflexivity|]. split; [constructor|]. split; [intros p []|]. intro p. split; [intros []|intros (n & d & [] & _)].
  - cbn [map fst] in ND. inversion ND as [|? ? NI ND']; subst.
    destruct (IH ND' (fun n d I => NS n d (or_intror I))) as (r & E & NR & BR & SR). clear IH.
    cbn [eqb negb andb]. rewrite andb_true_r, andb_false_r.
    set (path := join cur n ++ (if g_mark fl && d then [47] else [])).
    assert (BP : below cur n path).
    { exists (if g_mark fl && d then [47] else []). split; [reflexivity|]. destruct (g_mark fl && d); [right; exists []; reflexivity|left; reflexivity]. }
    assert (FR : ~ In path r).
    { intro I. destruct (BR path I) as (n' & d' & I' & B'). assert (n = n') by (apply (below_fun cur n n' path); [exact (NS n d (or_introl eq_refl))|exact (NS n' d' (or_intror I'))|exact BP|exact B']).
      subst n'. apply NI. apply (in_map fst) in I'. exact I'. }
    destruct (fnm (g_noescape fl) (g_period fl) c n) eqn:M; rewrite ?E.
    + exists (path :: r). split; [reflexivity|]. split; [constructor; assumption|]. split.
      * intros p [<-|I]; [exists n, d; split; [left; reflexivity|exact BP]|]. destruct (BR p I) as (n' & d' & I' & B'). exists n', d'. split; [right; exact I'|exact B'].
      * intro p. split.
        -- intros [<-|I]; [exists n, d; split; [left; reflexivity|split; [exact M|reflexivity]]|]. apply SR in I. destruct I as (n' & d' & I' & Q). exists n', d'. split; [right; exact I'|exact Q].
        -- intros (n' & d' & [I|I] & Q1 & Q2); [injection I as <- <-; left; symmetry; exact Q2|]. right. apply SR. exists n', d'. auto.
    + exists r. split; [reflexivity|]. split; [exact NR|]. split.
      * intros p I. destruct (BR p I) as (n' & d' & I' & B'). exists n', d'. split; [right; exact I'|exact B'].
      * intro p. rewrite SR. split.
        -- intros (n' & d' & I' & Q). exists n', d'. split; [right; exact I'|exact Q].
        -- intros (n' & d' & [I|I] & Q1 & Q2); [injection I as <- <-; red in Q1; congruence|]. exists n', d'. auto.
Qed.
Lemma entries_more cur c rest sub T : place cur -> rest <> [] -> forall l, NoDup (map fst l) -> (forall n d, In (n, d) l -> ~ In 47 n) ->
  (forall n, In (n, true) l -> cm c n -> exists r, sub (join cur n) = Paths r /\ NoDup r /\ (forall p, In p r -> below cur n p) /\ forall p, In p r <-> T (join cur n) p) ->
  exists r, entries fnm fl cur c rest sub l = Paths r /\ NoDup r /\
    (forall p, In p r -> exists n, In (n, true) l /\ below cur n p) /\
    forall p, In p r <-> exists n, In (n, true) l /\ cm c n /\ T (join cur n) p.
Proof.
  intros P NR l. induction l as [|(n & d) l IH]; intros ND NS SUB; cbn [entries].
  - exists []. split; [reflexivity|]. split; [constructor|]. split; [intros p []|]. intro p. split; [intros []|intros (n & [] & _)].
  - cbn [map fst] in ND. inversion ND as [|? ? NI ND']; subst.
    destruct (IH ND' (fun n d I => NS n d (or_intror I)) (fun n I C => SUB n (or_intror I) C)) as (r & E & NDR & BR & SR). clear IH.
    destruct (eqb_spec rest []); [contradiction|]. cbn [negb andb]. rewrite !andb_false_r, !andb_true_r. cbn [andb].
    assert (SKIP : (d = false \/ ~ cm c n) -> (forall p, In p r -> exists n0, In (n0, true) ((n, d) :: l) /\ below cur n0 p) /\
      (forall p, In p r <-> exists n0, In (n0, true) ((n, d) :: l) /\ cm c n0 /\ T (join cur n0) p)).
    { intro H. split.
      - intros p I. destruct (BR p I) as (n' & I' & B'). exists n'. split; [right; exact I'|exact B'].
      - intro p. rewrite SR. split; intros (n' & I' & Q); [exists n'; split; [right; exact I'|exact Q]|].
        destruct I' as [I'|I']; [inversion I'; subst; destruct H as [H|H]; [discriminate|elim H; apply Q]|]. exists n'. split; assumption. }
    destruct d; cbn [negb andb].
    + rewrite app_nil_r. destruct (fnm (g_noescape fl) (g_period fl) c n) eqn:M.
      * destruct (SUB n (or_introl eq_refl) M) as (a & EA & NA & BA & SA). rewrite EA, E. exists (a ++ r). split; [reflexivity|].
        assert (DJ : forall p, In p a -> ~ In p r).
        { intros p I1 I2. destruct (BR p I2) as (n' & I' & B').
          assert (n = n') by (apply (below_fun cur n n' p); [exact (NS n true (or_introl eq_refl))|exact (NS n' true (or_intror I'))|exact (BA p I1)|exact B']).
          subst n'. apply NI. apply (in_map fst) in I'. exact I'. }
        split; [|split].
        -- clear - NA NDR DJ. induction NA as [|x a NX NA IH]; cbn; [exact NDR|]. constructor.
           ++ intro I. apply in_app_or in I. destruct I as [I|I]; [contradiction|]. apply (DJ x); [left; reflexivity|exact I].
           ++ apply IH. intros p I. apply DJ. right. exact I.
        -- intros p I. apply in_app_or in I. destruct I as [I|I]; [exists n; split; [left; reflexivity|exact (BA p I)]|].
           destruct (BR p I) as (n' & I' & B'). exists n'. split; [right; exact I'|exact B'].
        -- intro p. rewrite in_app_iff, SA, SR. split.
           ++ intros [H|(n' & I' & Q)]; [exists n; split; [left; reflexivity|split; [exact M|exact H]]|exists n'; split; [right; exact I'|exact Q]].
           ++ intros (n' & [I'|I'] & Q1 & Q2); [injection I' as <-; left; exact Q2|right; exists n'; auto].
      * rewrite E. exists r. split; [reflexivity|]. split; [exact NDR|]. apply SKIP. right. unfold cm. congruence.
    + exists r. split; [exact E|]. split; [exact NDR|]. apply SKIP. left. reflexivity.
Qed.
Lemma text_nonempty c cs : simple c -> joined (c :: cs) <> [].
Proof. intros (N & _). destruct cs; cbn [joined]; [exact N|]. destruct c; [contradiction|discriminate]. Qed.
Lemma entries_ext sub sub' cur c l : entries fnm fl cur c [] sub l = entries fnm fl cur c [] sub' l.
Proof.
  induction l as [|(n & d) l IH]; cbn [entries]; [reflexivity|]. cbn [eqb negb andb]. rewrite !andb_true_r, andb_false_r, IH. reflexivity.
Qed.
Lemma inner_ok cs : Forall simple cs -> cs <> [] -> forall fuel cur e, place cur -> strip e = strip (joined cs) -> (length cs <= fuel)%nat ->
  exists r, inner_glob ls fnm nf fuel fl cur e = Ok (Paths r) /\ answer dir cm (g_mark fl) cur cs r /\
    forall p, In p r -> exists n d, In (n, d) (dir cur) /\ below cur n p.
Proof.
  induction cs as [|c cs IH]; intros F NE fuel cur e P SE L; [contradiction|]. apply Forall_inv in F as FC. apply Forall_inv_tail in F.
  destruct fuel as [|f]; [cbn in L; lia|]. cbn [inner_glob]. rewrite SE.
  assert (SEC : section (g_noescape fl) false false (strip (joined (c :: cs))) [] = (c, match cs with [] => [] | _ => joined cs end)).
  { destruct cs as [|c2 cs]; cbn [joined].
    - rewrite <- (app_nil_r c) at 1. apply section_comp; [exact FC|left; reflexivity].
    - apply (section_comp (g_noescape fl) c (47 :: joined (c2 :: cs)) FC). right. eexists. reflexivity. }
  rewrite SEC. pose proof FC as (C1 & C2 & C3 & C4 & C5). destruct (eqb_spec c [46]) as [|X1]; [contradiction|]. destruct (eqb_spec c [46; 46]) as [|X2]; [contradiction|]. cbn [orb].
  change (nf cur) with false. change (nf (cur ++ c)) with false. rewrite NOERR. cbn [orb]. rewrite !andb_false_r.
  destruct (TD cur) as (ND & NM). pose proof (DIR cur) as DC.
  destruct (ls cur) as [l|].
  - rewrite DC in ND, NM. assert (NS : forall n d, In (n, d) l -> ~ In 47 n) by (intros n d I; apply (NM n d I)).
    destruct cs as [|c2 cs].
    + rewrite (entries_ext _ (fun _ => Abort)). destruct (entries_last cur c P l ND NS) as (r & -> & NR & BR & SR).
      exists r. split; [destruct r; reflexivity|]. split; [|rewrite DC; exact BR]. split; [exact NR|]. intro p. rewrite SR. split.
      * intros (n & d & I & M & ->). exists (join cur n), d. split; [|reflexivity]. apply w_last with n; [rewrite DC; exact I|exact M|apply join_under; exact P].
      * intros (q & d & W & ->). apply walk_last_inv in W. destruct W as (n & I & M & U). exists n, d. rewrite DC in I. split; [exact I|]. split; [exact M|].
        rewrite (under_fun cur n _ _ U (join_under cur n P)). reflexivity.
    + set (sub := fun p => match inner_glob ls fnm nf f fl p (joined (c2 :: cs)) with Ok r => r | _ => Abort end).
      destruct (entries_more cur c (joined (c2 :: cs)) sub (fun q p => exists x d, walk dir cm q (c2 :: cs) x d /\ p = x ++ (if g_mark fl && d then [47] else []))
        P (text_nonempty _ _ (Forall_inv F)) l ND NS) as (r & E & NR & BR & SR).
      { intros n I M. destruct (NM n true I) as (N1 & N2 & _). destruct (IH F ltac:(discriminate) f (join cur n) (joined (c2 :: cs)) (join_place cur n P N1 N2) eq_refl ltac:(cbn in L |- *; lia)) as (r & E & (NR & SR) & BR).
        exists r. unfold sub. rewrite E. split; [reflexivity|]. split; [exact NR|]. split; [|exact SR]. intros p IP. destruct (BR p IP) as (m & d & _ & B).
        exact (below_trans cur n m p P N1 N2 B). }
      cbn zeta. fold sub. rewrite E. exists r. split; [destruct r; reflexivity|]. split.
      * split; [exact NR|]. intro p. rewrite SR. split.
        -- intros (n & I & M & x & d & W & ->). exists x, d. split; [|reflexivity]. apply w_more with n (join cur n); [rewrite DC; exact I|exact M|apply join_under; exact P|exact W].
        -- intros (q & d & W & ->). apply walk_more_inv in W. destruct W as (n & q0 & I & M & U & W'). exists n. rewrite DC in I. split; [exact I|]. split; [exact M|].
           exists q, d. split; [|reflexivity]. rewrite <- (under_fun cur n _ _ U (join_under cur n P)). exact W'.
      * intros p I. destruct (BR p I) as (n & I' & B). exists n, true. rewrite DC. split; assumption.
  - exists []. split; [reflexivity|]. split; [|intros p []]. split; [constructor|]. intro p. split; [intros []|]. intros (q & d & W & _).
    destruct cs as [|c2 cs]; [apply walk_last_inv in W; destruct W as (n & I & _)|apply walk_more_inv in W; destruct W as (n & q0 & I & _)]; rewrite DC in I; destruct I.
Qed.
End S.

Lemma lex_total p : forall q, lex p q = Gt -> lex q p <> Gt.
Proof.
  induction p as [|a p IH]; intros [|b q] H; cbn in *; try discriminate.
  rewrite (Z.compare_antisym a b). destruct (a ?= b); cbn in *; try discriminate; apply IH; exact H.
Qed.
Lemma insert_ordered p l : ordered l -> ordered (insert p l).
Proof.
  unfold ordered. induction l as [|q l IH]; intro S; cbn [insert]; [repeat constructor|].
  assert (H : (lex q p = Gt /\ Sorted (fun p q => lex p q <> Gt) (p :: q :: l)) \/ (lex q p <> Gt)).
  { destruct (lex q p) eqn:E; [right; discriminate|right; discriminate|left]. split; [reflexivity|]. constructor; [exact S|constructor]. exact (lex_total _ _ E). }
  destruct H as [(E & H)|H].
  - rewrite E. exact H.
  - inversion S as [|? ? S1 S2]; subst. assert (G : Sorted (fun p q => lex p q <> Gt) (q :: insert p l)).
    { constructor; [apply IH; exact S1|]. destruct l as [|x l]; cbn [insert]; [constructor; exact H|].
      inversion S2; subst. destruct (lex x p); constructor; assumption. }
    destruct (lex q p); [exact G|exact G|contradiction].
Qed.
Lemma sort_ordered l : ordered (sort l).
Proof. induction l as [|p l IH]; cbn; [constructor|apply insert_ordered; exact IH]. Qed.
Lemma insert_perm p l : Permutation (insert p l) (p :: l).
Proof.
  induction l as [|q l IH]; cbn [insert]; [reflexivity|]. destruct (lex q p); try reflexivity; (transitivity (q :: p :: l); [constructor; exact IH|constructor]).
Qed.
Lemma sort_perm l : Permutation (sort l) l.
Proof. induction l as [|p l IH]; cbn; [reflexivity|]. rewrite insert_perm. constructor. exact IH. Qed.
Lemma answer_perm dir cm mark cur cs l k : Permutation k l -> answer dir cm mark cur cs l -> answer dir cm mark cur cs k.
Proof.
  intros P (A & B). split; [exact (Permutation_NoDup (Permutation_sym P) A)|]. intro p. rewrite <- B. split; apply Permutation_in; [exact P|symmetry; exact P].
Qed.
Definition before (fl : flags) (g : globt) : list (option (list Z)) :=
  if g_append fl then gl_vec g else if g_dooffs fl then repeat None (gl_offs g) else [].
Lemma glob_ok dir ls fnm fl (absolute : bool) cs fuel g :
  (forall cur, dir cur = match ls cur with Some l => l | None => [] end) -> tidy dir -> g_err fl = false ->
  Forall simple cs -> cs <> [] -> (length cs <= fuel)%nat ->
  exists l, answer dir (cm fnm fl) (g_mark fl) (if absolute then [47] else @nil Z) cs l /\ (g_nosort fl = false -> ordered l) /\
    glob ls fnm nf fuel (pattern_text absolute cs) fl g =
      match l, g_nocheck fl with
      | [], false => Ok (GT (if g_append fl then gl_pathc g else 0) (gl_offs g) (before fl g), GLOB_NOMATCH)
      | [], true => Ok (GT (if g_append fl then gl_pathc g + 1 else 1) (gl_offs g) (before fl g ++ [Some (pattern_text absolute cs)]), 0)
      | _, _ => Ok (GT ((if g_append fl then gl_pathc g else 0) + len l) (gl_offs g) (before fl g ++ map Some l), 0)
      end.
Proof.
  intros DIR TD NE F NN L. set (base := if absolute then [47] else @nil Z).
  assert (PB : place base) by (unfold base, place; destruct absolute; tauto).
  destruct cs as [|c cs]; [contradiction|]. pose proof (Forall_inv F) as FC.
  assert (SE : strip (pattern_text absolute (c :: cs)) = strip (joined (c :: cs))) by (unfold pattern_text; destruct absolute; reflexivity).
  destruct (inner_ok dir ls fnm fl DIR TD NE (c :: cs) F NN fuel base (pattern_text absolute (c :: cs)) PB SE L) as (r & E & A & _).
  assert (PT : pattern_text absolute (c :: cs) <> []) by (unfold pattern_text; destruct absolute; [discriminate|apply text_nonempty; exact FC]).
  assert (BS : match pattern_text absolute (c :: cs) with 47 :: _ => [47] | _ => @nil Z end = base).
  { unfold pattern_text, base. destruct absolute; [reflexivity|]. pose proof FC as (C1 & _ & _ & C4 & _).
    assert (H : exists x t, joined (c :: cs) = x :: t /\ x <> 47).
    { destruct c as [|x c]; [contradiction|]. assert (x <> 47) by (intro X; apply C4; left; exact X). destruct cs; cbn [joined app]; eexists _, _; split; try reflexivity; assumption. }
    destruct H as (x & t & -> & X). destruct x as [|x|x]; try reflexivity. do 6 (destruct x as [x|x|]; try reflexivity). contradiction. }
  exists (if g_nosort fl then r else sort r). split; [destruct (g_nosort fl); [exact A|exact (answer_perm _ _ _ _ _ _ _ (sort_perm r) A)]|].
  split; [intros ->; apply sort_ordered|]. unfold glob, before. destruct (eqb_spec (pattern_text absolute (c :: cs)) []); [contradiction|].
  rewrite BS, E. cbn [bind]. destruct r as [|p r].
  - cbn. assert (H : (if g_nosort fl then @nil (list Z) else []) = @nil (list Z)) by (destruct (g_nosort fl); reflexivity). rewrite H.
    destruct (g_nocheck fl); cbn; destruct (g_append fl), (g_nosort fl); reflexivity.
  - assert (H : exists x y, (if g_nosort fl then p :: r else sort (p :: r)) = x :: y).
    { destruct (g_nosort fl); [eexists _, _; reflexivity|]. destruct (sort (p :: r)) as [|x y] eqn:S; [|eexists _, _; reflexivity].
      pose proof (sort_perm (p :: r)) as Q. rewrite S in Q. apply Permutation_nil in Q. discriminate. }
    destruct H as (x & y & ->). cbn [map eqb andb]. destruct (g_append fl); reflexivity.
Qed.

(* fnmatch *)
Lemma pmatch_period a b lead es s : pmatch false a lead es s -> (lead = true -> hd 0 s <> 46) -> pmatch false b lead es s.
Proof.
  intro H. induction H as [|lead c es s H IH|lead c es s H IH|lead c es s W H IH|lead neg l c es s W I H IH|lead es s H IH|lead c es s W H IH]; intro L.
  - constructor.
  - constructor. apply IH. discriminate.
  - constructor. apply IH. discriminate.
  - constructor; [|apply IH; discriminate]. split; [discriminate|]. intros _. exact L.
  - constructor; [|exact I|apply IH; discriminate]. split; [discriminate|]. intros _. exact L.
  - constructor. apply IH. exact L.
  - apply pm_star; [|apply IH; discriminate]. split; [discriminate|]. intros _. exact L.
Qed.
Lemma fnm_c_ok ne period c n : (exists es, Forall elem_ok es /\ Forall no_escape es /\ text es = c) -> name_ok period n ->
  (fnm_c ne period c n = true <-> means period c n).
Proof.
  intros H (N1 & N2 & N3).
  set (m := mem_union (mem_of 1 (c ++ [0])) (mem_of (len c + 2) (n ++ [0]))).
  set (fl := (if ne then 1 else 0) + (if period then 4 else 0)).
  assert (F1 : flag fl FNM_PATHNAME = false) by (unfold fl; destruct ne, period; reflexivity).
  assert (F2 : flag fl FNM_PERIOD = period) by (unfold fl; destruct ne, period; reflexivity).
  assert (B1 : bytes_at m 1 (c ++ [0])).
  { apply bytes_at_nth. intros i b Hi. unfold m, mem_union. rewrite (proj1 (bytes_at_nth _ _ _) (mem_of_bytes 1 (c ++ [0])) i b Hi). reflexivity. }
  assert (B2 : cstr m (len c + 2) n).
  { split; [exact N1|]. apply bytes_at_nth. intros i b Hi. unfold m, mem_union.
    assert (X : mem_of 1 (c ++ [0]) (len c + 2 + Z.of_nat i) = None).
    { unfold mem_of, len. destruct (Z.leb_spec 1 (Z.of_nat (length c) + 2 + Z.of_nat i)); [|reflexivity]. apply nth_error_None. rewrite app_length. cbn. lia. }
    rewrite X. exact (proj1 (bytes_at_nth _ _ _) (mem_of_bytes (len c + 2) (n ++ [0])) i b Hi). }
  assert (K : forall es, Forall elem_ok es -> Forall no_escape es -> text es = c -> (fnm_c ne period c n = true <-> pmatch false period true es n)).
  { intros es E1 E2 E3. destruct (fnmatch_ok (S (length c + length n)) m 1 es (len c + 2) n fl E1 E2) as (r & E & R1 & R2); rewrite ?F1, ?F2, ?E3; auto; try discriminate; try lia.
    unfold fnm_c. fold m fl. rewrite E. rewrite F1, F2 in R1. rewrite Z.eqb_eq. exact R1. }
  split.
  - intro T. destruct H as (es & E1 & E2 & E3). exists es. split; [exact E1|]. split; [exact E2|]. split; [exact E3|]. apply (pmatch_period period); [apply K; assumption|intros _; exact N2].
  - intros (es & E1 & E2 & E3 & M). apply (K es E1 E2 E3). apply (pmatch_period (negb period)); [exact M|intros _; exact N2].
Qed.
Lemma walk_ext dir (c1 c2 : list Z -> list Z -> Prop) : forall cur cs p d, (forall c cur n d, In c cs -> In (n, d) (dir cur) -> c1 c n -> c2 c n) ->
  walk dir c1 cur cs p d -> walk dir c2 cur cs p d.
Proof.
  intros cur cs p d H W. induction W as [cur c n d p I M U|cur c c3 cs n q p d I M U W IH].
  - apply w_last with n; auto. apply (H c cur n d); auto. left; reflexivity.
  - apply w_more with n q; auto; [apply (H c cur n true); auto; left; reflexivity|]. apply IH. intros x y z w I1. apply H. right. exact I1.
Qed.
Lemma glob_fnmatch dir ls fl (absolute : bool) cs fuel g :
  (forall cur, dir cur = match ls cur with Some l => l | None => [] end) -> good (g_period fl) dir -> g_err fl = false ->
  Forall comp_ok cs -> cs <> [] -> (length cs <= fuel)%nat ->
  exists l, answer dir (means (g_period fl)) (g_mark fl) (if absolute then [47] else @nil Z) cs l /\ (g_nosort fl = false -> ordered l) /\
    glob ls fnm_c (fun _ => false) fuel (pattern_text absolute cs) fl g =
      match l, g_nocheck fl with
      | [], false => Ok (GT (if g_append fl then gl_pathc g else 0) (gl_offs g) (before fl g), GLOB_NOMATCH)
      | [], true => Ok (GT (if g_append fl then gl_pathc g + 1 else 1) (gl_offs g) (before fl g ++ [Some (pattern_text absolute cs)]), 0)
      | _, _ => Ok (GT ((if g_append fl then gl_pathc g else 0) + len l) (gl_offs g) (before fl g ++ map Some l), 0)
      end.
Proof.
  intros DIR G NE F NN L.
  assert (TD : tidy dir).
  { intro cur. destruct (G cur) as (A & B). split; [exact A|]. intros n d I. destruct (B n d I) as (X & Y & _ & Z & _). auto. }
  assert (FS : Forall simple cs) by (eapply Forall_impl; [|exact F]; intros a H; apply H).
  destruct (glob_ok dir ls fnm_c fl absolute cs fuel g DIR TD NE FS NN L) as (l & (A1 & A2) & B & C). exists l. split; [|split; [exact B|exact C]].
  split; [exact A1|]. intro p. rewrite A2. rewrite Forall_forall in F.
  assert (EQ : forall c cur n d, In c cs -> In (n, d) (dir cur) -> (cm fnm_c fl c n <-> means (g_period fl) c n)).
  { intros c cur n d I1 I2. apply fnm_c_ok; [apply (F c I1)|]. apply (G cur) in I2. apply I2. }
  split; intros (q & d & W & E); exists q, d; (split; [|exact E]); revert W; apply walk_ext; intros c cur n d' I1 I2; apply (EQ c cur n d' I1 I2).
Qed.
