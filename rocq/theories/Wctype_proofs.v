(* The table lookups of <wctype.h>, checked value by value: the lists are turned into
   search trees, the code is run on every value below 2^18, and the values above are
   handled by the range tests. *)
From Coq Require Import FMapPositive String.
From Verif Require Import Base String_spec Ctype_spec Ctype_model Ctype_proofs Inet_model Inet_proofs Wcs_model Wctype_tables
  Wctype_model Wctype_spec.
Open Scope Z_scope.

(* ---- arrays as trees ---- *)
Fixpoint build {A} (l : list A) (p : positive) (t : PositiveMap.t A) : PositiveMap.t A :=
  match l with [] => t | x :: l => build l (Pos.succ p) (PositiveMap.add p x t) end.
Lemma build_find {A} (l : list A) : forall p t q,
  PositiveMap.find q (build l p t) =
  if Pos.ltb q p then PositiveMap.find q t
  else match nth_error l (Pos.to_nat q - Pos.to_nat p) with Some v => Some v | None => PositiveMap.find q t end.
Proof.
  induction l as [|x l IH]; intros p t q; cbn [build].
  - destruct (Pos.ltb q p); [reflexivity|]. destruct (Pos.to_nat q - Pos.to_nat p)%nat; reflexivity.
  - rewrite IH. destruct (Pos.ltb_spec q p) as [L|L].
    + assert (E : Pos.ltb q (Pos.succ p) = true) by (apply Pos.ltb_lt; lia). rewrite E.
      apply PositiveMap.gso. lia.
    + destruct (Pos.eq_dec q p) as [->|N].
      * assert (E : Pos.ltb p (Pos.succ p) = true) by (apply Pos.ltb_lt; lia). rewrite E.
        replace (Pos.to_nat p - Pos.to_nat p)%nat with O by lia. cbn. apply PositiveMap.gss.
      * assert (E : Pos.ltb q (Pos.succ p) = false) by (apply Pos.ltb_ge; lia). rewrite E.
        replace (Pos.to_nat q - Pos.to_nat p)%nat with (S (Pos.to_nat q - Pos.to_nat (Pos.succ p))) by lia.
        cbn [nth_error]. rewrite PositiveMap.gso by exact N. reflexivity.
Qed.
Definition tree_arr {A} (t : PositiveMap.t A) : arr A := fun i => PositiveMap.find (Z.to_pos (i + 1)) t.
Lemma tree_arr_ok {A} (l : list A) t i : build l 1 (PositiveMap.empty A) = t -> tree_arr t i = arr_of l i.
Proof.
  intros <-. unfold tree_arr, arr_of. rewrite build_find.
  assert (E : Pos.ltb (Z.to_pos (i + 1)) 1 = false) by (apply Pos.ltb_ge; lia). rewrite E.
  rewrite PositiveMap.gempty. replace (Pos.to_nat (Z.to_pos (i + 1)) - Pos.to_nat 1)%nat with (Z.to_nat i) by lia.
  destruct (nth_error l (Z.to_nat i)); reflexivity.
Qed.

Definition alpha_tree := Eval vm_compute in build alpha_table 1 (PositiveMap.empty Z).
Definition punct_tree := Eval vm_compute in build punct_table 1 (PositiveMap.empty Z).
Definition tab_tree := Eval vm_compute in build case_tab 1 (PositiveMap.empty Z).
Definition rules_tree := Eval vm_compute in build case_rules 1 (PositiveMap.empty Z).
Definition bases_tree := Eval vm_compute in build case_rulebases 1 (PositiveMap.empty Z).
Definition exc_tree := Eval vm_compute in build case_exceptions 1 (PositiveMap.empty (Z * Z)).

Lemma idx_ext {A} (s t : arr A) i : (forall i, s i = t i) -> idx s i = idx t i.
Proof. intros E. unfold idx. rewrite E. reflexivity. Qed.
Lemma bitmap_ext s t w : (forall i, s i = t i) -> bitmap s w = bitmap t w.
Proof.
  intros E. unfold bitmap. rewrite (idx_ext s t) by exact E. destruct (idx t (Z.shiftr w 8)); cbn [bind]; try reflexivity.
  rewrite (idx_ext s t) by exact E. reflexivity.
Qed.
Lemma except_ext f : forall r r' e e' c0 c dir xb xn, (forall i, r i = r' i) -> (forall i, e i = e' i) ->
  except_loop f r e c0 c dir xb xn = except_loop f r' e' c0 c dir xb xn.
Proof.
  induction f as [|f IH]; intros r r' e e' c0 c dir xb xn R E; cbn [except_loop]; [reflexivity|].
  destruct (xn =? 0); [reflexivity|]. rewrite (idx_ext e e') by exact E.
  destruct (idx e' (xb + xn / 2)) as [[at_ rl]| | |]; cbn [bind]; try reflexivity.
  destruct (at_ =? c); [rewrite (idx_ext r r') by exact R; reflexivity|].
  destruct (c <? at_); apply IH; assumption.
Qed.
Lemma bind_ext {A B} (x y : res A) (k k' : A -> res B) : x = y -> (forall a, k a = k' a) -> bind x k = bind y k'.
Proof. intros <- K. destruct x; cbn [bind]; [apply K| | |]; reflexivity. Qed.
Lemma casemap_ext t t' r r' b b' e e' c dir :
  (forall i, t i = t' i) -> (forall i, r i = r' i) -> (forall i, b i = b' i) -> (forall i, e i = e' i) ->
  casemap t r b e c dir = casemap t' r' b' e' c dir.
Proof.
  intros T R B E. unfold casemap. destruct (131072 <=? c); [reflexivity|]. cbv zeta.
  apply bind_ext; [apply idx_ext; exact T|intros row].
  apply bind_ext; [apply idx_ext; exact T|intros v].
  apply bind_ext; [reflexivity|intros mt].
  apply bind_ext; [apply idx_ext; exact B|intros base].
  apply bind_ext; [apply idx_ext; exact R|intros rr].
  destruct (Z.land rr 255 <? 2); [reflexivity|]. apply except_ext; assumption.
Qed.

Definition f_alpha (w : Z) := alpha_is (tree_arr alpha_tree) w.
Definition f_punct (w : Z) := punct_is (tree_arr punct_tree) w.
Definition f_case (w dir : Z) :=
  casemap (tree_arr tab_tree) (tree_arr rules_tree) (tree_arr bases_tree) (tree_arr exc_tree) w dir.
Lemma f_alpha_ok w : iswalpha w = f_alpha w.
Proof.
  unfold iswalpha, f_alpha, alpha_is. destruct (w <? 131072); [|reflexivity]. apply bitmap_ext.
  intros i. symmetry. apply tree_arr_ok. vm_compute. reflexivity.
Qed.
Lemma f_punct_ok w : iswpunct w = f_punct w.
Proof.
  unfold iswpunct, f_punct, punct_is. destruct (w <? 131072); [|reflexivity]. apply bitmap_ext.
  intros i. symmetry. apply tree_arr_ok. vm_compute. reflexivity.
Qed.
Lemma f_case_ok w dir :
  casemap (arr_of case_tab) (arr_of case_rules) (arr_of case_rulebases) (arr_of case_exceptions) w dir = f_case w dir.
Proof.
  apply casemap_ext; intros i; symmetry; apply tree_arr_ok; vm_compute; reflexivity.
Qed.
Lemma f_lower_ok w : towlower w = f_case w 0. Proof. apply f_case_ok. Qed.
Lemma f_upper_ok w : towupper w = f_case w 1. Proof. apply f_case_ok. Qed.

(* ---- running a test on an aligned range ---- *)
Fixpoint check (k : nat) (b : Z) (f : Z -> bool) : bool :=
  match k with
  | O => f b
  | S k => check k b f && check k (b + 2 ^ Z.of_nat k) f
  end.
Lemma check_ok k f : forall b, check k b f = true -> forall w, b <= w < b + 2 ^ Z.of_nat k -> f w = true.
Proof.
  induction k as [|k IH]; intros b C w Hw; cbn [check] in C.
  - change (2 ^ Z.of_nat 0) with 1 in Hw. replace w with b by lia. exact C.
  - apply andb_prop in C. destruct C as [C1 C2].
    replace (Z.of_nat (S k)) with (Z.succ (Z.of_nat k)) in Hw by lia. rewrite Z.pow_succ_r in Hw by lia.
    destruct (Z_lt_dec w (b + 2 ^ Z.of_nat k)) as [L|L]; [apply (IH b)|apply (IH (b + 2 ^ Z.of_nat k))]; try assumption; lia.
Qed.

Local Notation "a ==> b" := (if a then b else true) (at level 70, right associativity).
Local Notation "a 'AND' b" := (if a then b else false) (at level 72, right associativity).
Lemma and_true (a b : bool) : (a AND b) = true -> a = true /\ b = true.
Proof. destruct a; [auto|discriminate]. Qed.
Definition nz (x : Z) : bool := negb (x =? 0).
(* The facts about one value; the runs are those near it. *)
Definition fact (rl ru : list run) (w : Z) : bool :=
  match f_alpha w, f_punct w, f_case w 0, f_case w 1 with
  | Ok a, Ok p, Ok l, Ok u =>
      let upper := negb (l =? w) in
      let lower := negb (u =? w) in
      let digit := nz (iswdigit w) in
      let alnum := digit || nz a in
      let xdigit := nz (iswxdigit w) in
      let space := nz (iswspace w) in
      (l =? moved rl w) AND (u =? moved ru w)
      AND (upper ==> nz a) AND (lower ==> nz a)
      AND (alnum ==> nz (iswgraph w)) AND (nz p ==> nz (iswgraph w))
      AND (xdigit ==> alnum) AND (digit ==> xdigit) AND (nz (iswblank w) ==> space)
      AND (nz (iswcntrl w) ==> negb (nz (iswprint w) || alnum || nz p))
      AND (nz p ==> negb (alnum || space))
      AND (space ==> negb alnum)
      AND (digit ==> negb (nz a))
      AND (((55296 <=? w) && (w <? 57344)) ==> negb (alnum || nz p || nz (iswprint w) || nz (iswcntrl w) || space))
      AND (upper ==> match f_case l 0, f_case l 1, f_alpha l with
                     | Ok ll, Ok lu, Ok al => (0 <=? l) AND (l <? 131072) AND (ll =? l) AND negb (lu =? l) AND nz al
                     | _, _, _ => false
                     end)
      AND (lower ==> match f_case u 1, f_case u 0, f_alpha u with
                     | Ok uu, Ok ul, Ok au => (0 <=? u) AND (u <? 131072) AND (uu =? u) AND negb (ul =? u) AND nz au
                     | _, _, _ => false
                     end)
  | _, _, _, _ => false
  end.
(* The runs that meet the block of 256 values from b. *)
Definition meets (b : Z) (r : run) : bool := match r with R x y _ _ => (x <? b + 256) && (b <=? y) end.
Definition block (k : Z) : bool :=
  let b := k * 256 in
  let rl := filter (meets b) lower_runs in
  let ru := filter (meets b) upper_runs in
  check 8 b (fact rl ru).
Lemma fact_all : check 10 0 block = true. Proof. vm_cast_no_check (eq_refl true). Qed.

Lemma moved_filter p w l : (forall r, p r = false -> in_run w r = false) -> moved (filter p l) w = moved l w.
Proof.
  intros H. induction l as [|[a b s d] l IH]; cbn [filter moved]; [reflexivity|].
  destruct (p (R a b s d)) eqn:E; cbn [moved].
  - destruct (in_run w (R a b s d)); [reflexivity|exact IH].
  - rewrite (H _ E). exact IH.
Qed.
Lemma meets_ok b w r : b <= w < b + 256 -> meets b r = false -> in_run w r = false.
Proof.
  intros W. destruct r as [x y s d]. cbn. intros M.
  assert (E : (x <=? w) && (w <=? y) = false) by lia. rewrite E. reflexivity.
Qed.
