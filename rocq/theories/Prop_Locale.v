(* C150: locales. *)
From Coq Require Import String.
From Verif Require Import Base Ctype_spec Locale_model Locale_spec Locale_proofs.
Open Scope string_scope.
Open Scope list_scope.
Open Scope Z_scope.

(* C150 full: localeconv gives the "C" locale's values until setlocale, and again after setlocale with "C"; setlocale sets exactly the fields of its
   category to those of the locale named, returns a name with which the category can be set again, and changes nothing when the locale is
   not there; the values of a locale definition are those in its file.  uselocale sets the calling thread's locale and returns the one before;
   localeconv follows it.  newlocale takes the categories in its mask from the locale named and the others from the base, or "C" if there is none;
   duplocale copies; freeing a locale leaves the others.
   Missing, refuted: "C" from setlocale and newlocale has no decimal point; names after LC_ALL; frac_digits; no base; a copy of the global
   locale; values with blanks in them. *)
Theorem C150_initially : forall w t, global w = None -> thread w t = 0 -> exists v, localeconv w t = Ok v /\ forall f, v f = c_locale f.
Proof. intros w t G T. unfold localeconv, uselocale. rewrite T, G. exists posix_lconv. split; [reflexivity|]. intro f. destruct f; reflexivity. Qed.
Print Assumptions C150_initially.

(* setlocale; c: 0 to 6; frac_digits apart *)
Theorem C150_setlocale_partial : forall files utf8 w t c n, wf w -> 0 <= c <= 6 -> thread w t = 0 -> global w <> None -> utf8 n = true ->
  match load files n with
  | Some l => exists w' v v', setlocale files utf8 w c (Some n) = (w', Some n) /\ localeconv w t = Ok v /\ localeconv w' t = Ok v' /\
      (forall f, f <> frac_digits -> v' f = if of_category c f then contents l f else v f) /\
      snd (setlocale files utf8 w' c None) = Some n /\ (forall d, 0 <= d <= 6 -> d <> c -> snd (setlocale files utf8 w' d None) = snd (setlocale files utf8 w d None)) /\
      thread w' = thread w /\ heap w' = heap w /\ wf w'
  | None => setlocale files utf8 w c (Some n) = (w, None)
  end.
Proof.
  intros files utf8 w t c n (X1 & X2 & X3 & W) C T G U. destruct w as [g th h nx]. cbn [global thread heap next] in *. destruct g as [[names data]|]; [|contradiction]. cbn [fst] in W.
  unfold setlocale. cbn [global thread heap next fst snd]. rewrite U. destruct (load files n) as [l|]; [|reflexivity].
  assert (E : exists x, get_name names c = Some x).
  { unfold get_name. rewrite usize_small by lia. rewrite (proj2 (Z.ltb_lt c (len names))) by lia.
    destruct (nth_error names (Z.to_nat c)) as [x|] eqn:E; [exists x; reflexivity|]. apply nth_error_None in E. unfold len in W. lia. }
  destruct E as [x E]. rewrite E. eexists. exists (contents data). eexists. split; [reflexivity|]. unfold localeconv, uselocale. cbn [thread global snd]. rewrite T.
  split; [reflexivity|]. split; [reflexivity|]. cbn [global snd fst].
  assert (L : len (set_nth names (Z.to_nat (as_usize c)) n) = 7) by (unfold len in *; rewrite set_nth_len; exact W).
  split; [|split; [|split; [|split; [reflexivity|split; [reflexivity|]]]]].
  - intros f N. unfold copy_category, of_category, copied. change LC_ALL with 6. change LC_NUMERIC with 4. change LC_MONETARY with 3.
    destruct (Z.eqb_spec c 6); [reflexivity|]. cbn [contents]. destruct (Z.eqb_spec c 4); [destruct f; reflexivity || contradiction|].
    destruct (Z.eqb_spec c 3); [destruct f; reflexivity || contradiction|]. reflexivity.
  - unfold get_name. rewrite L. rewrite usize_small by lia. rewrite (proj2 (Z.ltb_lt c 7)) by lia. apply set_nth_same. unfold len in W. lia.
  - intros d D N. unfold get_name. rewrite L, W. rewrite (usize_small d), (usize_small c) by lia. rewrite (proj2 (Z.ltb_lt d 7)) by lia. apply set_nth_other. lia.
  - split; [exact X1|]. split; [exact X2|]. split; [exact X3|]. exact L.
Qed.
Print Assumptions C150_setlocale_partial.
Definition names0 : list text := repeat (codes "C") 7.
Definition posix0 : world := World (Some (names0, posix)) (fun _ => 0) (fun _ => None) 1.
Definition german : list text := [codes "# German"; codes "decimal_point "",""" ; codes "thousands_sep ""."""; codes "grouping 3;3"; codes "title ""\"; codes "x"""; codes "currency_symbol ""E\"; codes "U\"; codes "R"""].
Definition files0 (n : text) : option (list text) := if text_eqb n (codes "de_DE") then Some german else None.
Example C150_setlocale_case : exists w' v, setlocale files0 (fun _ => true) posix0 4 (Some (codes "de_DE")) = (w', Some (codes "de_DE")) /\ localeconv w' 9 = Ok v /\
  v decimal_point = codes "," /\ v grouping = [3; 3] /\ v currency_symbol = [].
Proof.
  assert (W : wf posix0) by (repeat split; reflexivity).
  pose proof (C150_setlocale_partial files0 (fun _ => true) posix0 9 4 (codes "de_DE") W ltac:(lia) eq_refl ltac:(discriminate) eq_refl) as H.
  destruct (load files0 (codes "de_DE")) as [l|] eqn:E; [|vm_compute in E; discriminate]. destruct H as (w' & v & v' & A & B & C & D & _). exists w', v'. split; [exact A|]. split; [exact C|].
  assert (B' : v = contents posix) by (injection B as <-; reflexivity). subst v.
  rewrite !D by discriminate. cbn [of_category Z.eqb Pos.eqb numeric]. vm_compute in E. injection E as <-. repeat split; vm_compute; reflexivity.
Qed.
(* only reading the names: the global locale becomes the one newly made, with the names C *)
Theorem C150_query : forall files utf8 w c, 0 <= c <= 6 -> global w = None -> snd (setlocale files utf8 w c None) = Some (codes "C").
Proof.
  intros files utf8 w c C G. unfold setlocale. rewrite G. cbv zeta. cbn [snd fst]. unfold get_name. rewrite usize_small by lia. change (len (repeat (codes "C") 7)) with 7.
  rewrite (proj2 (Z.ltb_lt c 7)) by lia. assert (c = 0 \/ c = 1 \/ c = 2 \/ c = 3 \/ c = 4 \/ c = 5 \/ c = 6) as [->|[->|[->|[->|[->|[->| ->]]]]]] by lia; reflexivity.
Qed.
Print Assumptions C150_query.
Example C150_query_case : snd (setlocale files0 (fun _ => true) (World None (fun _ => 0) (fun _ => None) 1) 6 None) = Some (codes "C").
Proof. apply C150_query; [lia|reflexivity]. Qed.

(* definition files *)
Theorem C150_file_partial : forall files n is f, n <> [] -> n <> codes "C" -> n <> codes "POSIX" -> files n = Some (flat_map lines is) -> Forall item_ok is ->
  exists l, load files n = Some l /\ match kind_of f, last_value f is None with
  | Str, Some v => (forall s, v = [34] ++ s ++ [34] -> Forall (fun c => c <> 34 /\ c <> 0) s -> contents l f = s) /\
      (* text after the closing quotation mark, or no quotation mark at the start: as if not given *)
      (forall s r, v = [34] ++ s ++ [34] ++ r -> Forall (fun c => c <> 34) s -> r <> [] -> contents l f = []) /\ (hd 0 v <> 34 -> contents l f = [])
  | Group, Some v => forall ns, ns <> [] -> Forall (fun x => 0 <= x <= 127) ns -> v = semicolons ns -> contents l f = ns
  | Char, Some v => (exists x, contents l f = [x] /\ 0 <= x <= 127) /\ (v = codes "-1" -> contents l f = [127]) /\ forall x, 0 <= x <= 127 -> v = dec x -> contents l f = [x]
  | Char, None => contents l f = [127]
  | _, None => contents l f = []
  end.
Proof.
  intros files n is f N1 N2 N3 F I0. unfold load.
  assert (E : text_eqb n [] || text_eqb n (codes "C") || text_eqb n (codes "POSIX") = false).
  { unfold text_eqb. destruct (list_eq_dec Z.eq_dec n []); [contradiction|]. destruct (list_eq_dec Z.eq_dec n (codes "C")); [contradiction|]. destruct (list_eq_dec Z.eq_dec n (codes "POSIX")); [contradiction|]. reflexivity. }
  rewrite E, F. eexists. split; [reflexivity|]. cbn [contents new_data]. rewrite parse_ok; [|exact I0|lia].
  destruct (kind_of f), (last_value f is None) as [v|]; try reflexivity.
  - split; [|split].
    + intros s -> S0. change ([34] ++ s ++ [34]) with (34 :: s ++ [34]). rewrite parse_str_ok by exact S0. reflexivity.
    + intros s r -> S0 R. unfold parse_str. cbn [app]. change (34 =? 34) with true. cbv iota. rewrite quoted_rest by assumption. reflexivity.
    + intro H. unfold parse_str. destruct v as [|c v]; [reflexivity|]. cbn [hd] in H. rewrite (proj2 (Z.eqb_neq _ _) H). reflexivity.
  - intros ns N G ->. apply group_ok; assumption.
  - split; [eexists; split; [reflexivity|apply int_range]|]. split; [intros ->; reflexivity|]. intros x X ->. rewrite (proj1 (dec_ok x X)). reflexivity.
Qed.
Print Assumptions C150_file_partial.
Example C150_file_case : exists l, load files0 (codes "de_DE") = Some l /\ contents l currency_symbol = codes "EUR".
Proof.
  destruct (C150_file_partial files0 (codes "de_DE") [Note (codes "# German"); Entry decimal_point [] (codes """,""" ); Entry thousands_sep [] (codes """.""" ); Entry grouping [] (codes "3;3"); Other (codes "title") [codes """"] (codes "x"""); Entry currency_symbol [codes """E"; codes "U"] (codes "R""")] currency_symbol)
    as (l & A & B); [discriminate|discriminate|discriminate|vm_compute; reflexivity| |].
  - repeat (apply Forall_cons); try apply Forall_nil; cbn; unfold value_ok, word; try (right; eexists; reflexivity);
      repeat match goal with |- _ /\ _ => split end; try discriminate;
      repeat (first [apply Forall_nil|apply Forall_cons|intros []; discriminate]); cbn; lia.
  - exists l. split; [exact A|]. cbn [kind_of] in B. apply (proj1 B (codes "EUR")); [reflexivity|]. repeat constructor; discriminate.
Qed.

(* threads *)
Theorem C150_uselocale : forall w t loc, 0 < loc \/ loc = -1 -> (thread w t = 0 \/ 0 < thread w t) ->
  let w' := fst (uselocale w t loc) in
  snd (uselocale w' t 0) = loc /\ fst (uselocale w' t 0) = w' /\ (forall u, u <> t -> thread w' u = thread w u) /\ global w' = global w /\ heap w' = heap w /\
  fst (uselocale w' t (snd (uselocale w t loc))) = World (global w) (thread (fst (uselocale w' t (snd (uselocale w t loc))))) (heap w) (next w) /\
  (forall u, thread (fst (uselocale w' t (snd (uselocale w t loc)))) u = thread w u) /\
  (0 < loc -> forall l, heap w loc = Some l -> localeconv w' t = Ok (contents l)) /\
  (forall u, u <> t -> localeconv w' u = localeconv w u).
Proof.
  intros w t loc L T w'. unfold w', uselocale. change GLOBAL with (-1). cbn [fst snd]. rewrite (proj2 (Z.eqb_neq loc 0)) by lia. cbn [thread global heap next]. rewrite !Z.eqb_refl.
  assert (O : (if thread w t =? 0 then -1 else thread w t) =? 0 = false) by (destruct (Z.eqb_spec (thread w t) 0); [reflexivity|apply Z.eqb_neq; lia]).
  rewrite O. cbn [fst thread].
  assert (Q : (if loc =? -1 then 0 else loc) =? 0 = (loc =? -1)) by (destruct (Z.eqb_spec loc (-1)); [reflexivity|apply Z.eqb_neq; lia]).
  split; [rewrite Q; destruct (Z.eqb_spec loc (-1)); lia|]. split; [reflexivity|]. split; [intros u N; rewrite (proj2 (Z.eqb_neq u t) N); reflexivity|]. split; [reflexivity|]. split; [reflexivity|].
  split; [reflexivity|]. split; [|split].
  - intro u. destruct (Z.eqb_spec u t) as [->|N]; [|reflexivity]. destruct (Z.eqb_spec (thread w t) 0) as [E|E]; [rewrite E; reflexivity|]. rewrite (proj2 (Z.eqb_neq (thread w t) (-1))) by lia. reflexivity.
  - intros P l H. unfold localeconv, uselocale. change GLOBAL with (-1). cbn [snd thread heap]. rewrite Z.eqb_refl, (proj2 (Z.eqb_neq loc (-1))), (proj2 (Z.eqb_neq loc 0)) by lia.
    rewrite (proj2 (Z.eqb_neq loc (-1))), (proj2 (Z.eqb_neq loc 0)) by lia. cbn [orb]. rewrite H. reflexivity.
  - intros u N. unfold localeconv, uselocale. change GLOBAL with (-1). cbn [snd thread heap]. rewrite (proj2 (Z.eqb_neq u t) N). reflexivity.
Qed.
Print Assumptions C150_uselocale.

(* copies are new, and apart from what they were copied of *)
Theorem C150_duplocale_partial : forall w loc l, wf w -> 0 < loc -> heap w loc = Some l ->
  exists w' new w'' w3, duplocale w loc = Ok (w', new) /\ new <> loc /\ 0 < new /\ heap w new = None /\ heap w' new = Some l /\ heap w' loc = Some l /\ wf w' /\
    (forall h, h <> new -> heap w' h = heap w h) /\ thread w' = thread w /\ global w' = global w /\
    freelocale w' loc = Ok w'' /\ heap w'' new = Some l /\ freelocale w' new = Ok w3 /\ forall h, heap w3 h = heap w h.
Proof.
  intros w loc l (X1 & X2 & X3 & W) L H. unfold duplocale, freelocale, allocate. change GLOBAL with (-1). rewrite (proj2 (Z.eqb_neq loc 0)), (proj2 (Z.eqb_neq loc (-1))) by lia. rewrite H.
  assert (N : next w <> loc) by (intro E; rewrite (X2 loc) in H by lia; discriminate).
  exists (World (global w) (thread w) (fun h => if h =? next w then Some l else heap w h) (next w + 1)), (next w).
  exists (World (global w) (thread w) (fun h => if h =? loc then None else if h =? next w then Some l else heap w h) (next w + 1)).
  exists (World (global w) (thread w) (fun h => if h =? next w then None else if h =? next w then Some l else heap w h) (next w + 1)).
  rewrite (proj2 (Z.eqb_neq (next w) 0)), (proj2 (Z.eqb_neq (next w) (-1))) by lia. cbn [orb heap thread global next]. rewrite Z.eqb_refl. rewrite (proj2 (Z.eqb_neq loc (next w))) by lia. rewrite H.
  split; [reflexivity|]. split; [exact N|]. split; [exact X1|]. split; [apply X2; lia|].
  split; [reflexivity|]. split; [reflexivity|]. split.
  - split; [cbn [next]; lia|]. cbn [heap next global]. split; [|split; [|exact W]]; intros h P; [rewrite (proj2 (Z.eqb_neq h (next w))) by lia; apply X2; lia|rewrite (proj2 (Z.eqb_neq h (next w))) by lia; apply X3; lia].
  - split; [intros h P; rewrite (proj2 (Z.eqb_neq h (next w)) P); reflexivity|]. split; [reflexivity|]. split; [reflexivity|]. split; [reflexivity|]. rewrite (proj2 (Z.eqb_neq (next w) loc)) by lia.
    split; [reflexivity|]. split; [reflexivity|]. intro h. destruct (Z.eqb_spec h (next w)) as [->|P]; [symmetry; apply X2; lia|reflexivity].
Qed.
Print Assumptions C150_duplocale_partial.

(* newlocale on a base; masks: LC_NUMERIC 16, LC_MONETARY 8; frac_digits apart *)
Theorem C150_newlocale_partial : forall files w mask n base b l, wf w -> 0 < base -> heap w base = Some b -> load files n = Some l ->
  exists w' new r, newlocale files w mask n base = Ok (w', new) /\ 0 < new /\ heap w new = None /\ heap w' new = Some r /\ (forall h, h <> new -> heap w' h = heap w h) /\
    forall f, f <> frac_digits -> contents r f = if Z.land mask (if numeric f then 16 else 8) =? 0 then contents b f else contents l f.
Proof.
  intros files w mask n base b l (X1 & X2 & X3 & W) B H L. unfold newlocale. rewrite L. change GLOBAL with (-1). rewrite (proj2 (Z.eqb_neq base (-1))), (proj2 (Z.eqb_neq base 0)) by lia. cbn [orb]. rewrite H.
  unfold allocate. eexists. exists (next w). eexists. split; [reflexivity|]. split; [exact X1|]. split; [apply X2; lia|]. cbn [heap]. rewrite Z.eqb_refl. split; [reflexivity|].
  split; [intros h P; rewrite (proj2 (Z.eqb_neq h (next w)) P); reflexivity|].
  intros f N. destruct (Z.land mask 16 =? 0) eqn:E1; destruct (Z.land mask 8 =? 0) eqn:E2; destruct f; cbn [numeric]; rewrite ?E1, ?E2; reflexivity || contradiction.
Qed.
Print Assumptions C150_newlocale_partial.
Theorem C150_newlocale_fails : forall files w mask n base, load files n = None -> newlocale files w mask n base = Ok (w, 0).
Proof. intros files w mask n base L. unfold newlocale. rewrite L. reflexivity. Qed.
Print Assumptions C150_newlocale_fails.
Definition one : world := World None (fun _ => 0) (fun h => if h =? 1 then Some posix else None) 2.
Example C150_newlocale_case : exists w' new r, newlocale files0 one 16 (codes "de_DE") 1 = Ok (w', new) /\ heap w' new = Some r /\ contents r decimal_point = codes "," /\ contents r currency_symbol = [].
Proof.
  assert (W : wf one).
  { split; [reflexivity|]. split; [|split; [|exact Logic.I]]; intros h H; cbn [one heap next] in *; rewrite (proj2 (Z.eqb_neq h 1)) by lia; reflexivity. }
  destruct (load files0 (codes "de_DE")) as [l|] eqn:E; [|vm_compute in E; discriminate].
  destruct (C150_newlocale_partial files0 one 16 (codes "de_DE") 1 posix l W ltac:(lia) eq_refl E) as (w' & new & r & A & _ & _ & B & _ & C). exists w', new, r. split; [exact A|]. split; [exact B|].
  rewrite !C by discriminate. vm_compute in E. injection E as <-. split; vm_compute; reflexivity.
Qed.
Example C150_duplocale_case : exists w' new, duplocale one 1 = Ok (w', new) /\ new <> 1 /\ heap w' new = Some posix.
Proof.
  assert (W : wf one).
  { split; [reflexivity|]. split; [|split; [|exact Logic.I]]; intros h H; cbn [one heap next] in *; rewrite (proj2 (Z.eqb_neq h 1)) by lia; reflexivity. }
  destruct (C150_duplocale_partial one 1 posix W ltac:(lia) eq_refl) as (w' & new & _ & _ & A & B & _ & _ & C & _). exists w', new. split; [exact A|]. split; [exact B|exact C].
Qed.
Example C150_uselocale_case : localeconv (fst (uselocale one 7 1)) 7 = Ok (contents posix) /\ snd (uselocale one 7 1) = -1 /\ snd (uselocale (fst (uselocale one 7 1)) 7 0) = 1.
Proof. destruct (C150_uselocale one 7 1 ltac:(lia) ltac:(left; reflexivity)) as (A & _ & _ & _ & _ & _ & _ & B & _). split; [apply B; [lia|reflexivity]|]. split; [reflexivity|exact A]. Qed.

(* setlocale(.., "C"): no decimal point, for any state *)
Theorem C150_decimal_point_refuted : forall files utf8 w c, wf w -> utf8 (codes "C") = true -> c = 4 \/ c = 6 ->
  exists w' v, setlocale files utf8 w c (Some (codes "C")) = (w', Some (codes "C")) /\ (forall t, thread w t = 0 -> localeconv w' t = Ok v) /\ v decimal_point = [] /\ c_locale decimal_point = codes ".".
Proof.
  intros files utf8 w c (_ & _ & _ & W) U C. unfold setlocale. rewrite U. destruct w as [g th h nx]. cbn [global thread heap next] in *.
  assert (Wg : exists names data, match g with Some g => g | None => (repeat (codes "C") 7, posix) end = (names, data) /\ len names = 7).
  { destruct g as [[names data]|]; [exists names, data; split; [reflexivity|exact W]|]. eexists. eexists. split; [reflexivity|reflexivity]. }
  destruct Wg as (names & data & Eg & Ln). cbv zeta. rewrite Eg. cbn [fst snd]. change (load files (codes "C")) with (Some posix). cbv iota.
  assert (E : exists x, get_name names c = Some x).
  { unfold get_name. rewrite usize_small by lia. rewrite (proj2 (Z.ltb_lt c (len names))) by lia.
    destruct (nth_error names (Z.to_nat c)) as [x|] eqn:E; [exists x; reflexivity|]. apply nth_error_None in E. unfold len in Ln. lia. }
  destruct E as [x E]. rewrite E. eexists. eexists. split; [reflexivity|]. split; [intros t T; unfold localeconv, uselocale; cbn [thread global snd]; rewrite T; reflexivity|].
  split; [|reflexivity]. destruct C as [->| ->]; reflexivity.
Qed.
Print Assumptions C150_decimal_point_refuted.
(* setlocale(LC_ALL, n): the other categories keep their names though their fields are those of n *)
Theorem C150_all_refuted : let w' := fst (setlocale files0 (fun _ => true) posix0 6 (Some (codes "de_DE"))) in
  snd (setlocale files0 (fun _ => true) w' 6 None) = Some (codes "de_DE") /\ snd (setlocale files0 (fun _ => true) w' 4 None) = Some (codes "C") /\
  exists v, localeconv w' 1 = Ok v /\ v decimal_point = codes ",".
Proof. vm_compute. split; [reflexivity|]. split; [reflexivity|]. eexists. split; reflexivity. Qed.
Print Assumptions C150_all_refuted.
(* frac_digits is of LC_MONETARY, but is set with LC_NUMERIC *)
Theorem C150_frac_digits_refuted : forall self other, contents (copy_category self other 3) frac_digits = contents self frac_digits /\ contents (copy_category self other 4) frac_digits = contents other frac_digits.
Proof. intros. split; reflexivity. Qed.
Print Assumptions C150_frac_digits_refuted.
(* no base: the categories not in the mask are of the locale named too *)
Theorem C150_base_refuted : forall files w mask n l, load files n = Some l -> exists w' new, newlocale files w mask n 0 = Ok (w', new) /\ heap w' new = Some l.
Proof. intros files w mask n l L. unfold newlocale. rewrite L. cbn [Z.eqb orb]. eexists. eexists. split; [reflexivity|]. cbn [heap]. rewrite Z.eqb_refl. reflexivity. Qed.
Print Assumptions C150_base_refuted.
(* duplocale(LC_GLOBAL_LOCALE): whatever the global locale is *)
Theorem C150_global_refuted : forall w, exists w' new, duplocale w (-1) = Ok (w', new) /\ heap w' new = Some posix.
Proof. intro w. eexists. eexists. split; [reflexivity|]. cbn [heap]. rewrite Z.eqb_refl. reflexivity. Qed.
Print Assumptions C150_global_refuted.
(* a value with a blank is cut there: every int_curr_symbol has one *)
Theorem C150_blank_refuted : contents (new_data (codes "x") (parse 1 [codes "int_curr_symbol ""USD """] (fun _ => None))) int_curr_symbol = codes "USD".
Proof. vm_compute. reflexivity. Qed.
Print Assumptions C150_blank_refuted.
