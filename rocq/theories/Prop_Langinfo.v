(* C157: nl_langinfo. *)
From Coq Require Import String.
From Verif Require Import Base Ctype_spec Writer_model Writer_proofs Time_model Time_spec Time_proofs Time_proofs2 Time_proofs3 Langinfo_model Langinfo_spec Langinfo_proofs.
From Verif Require Locale_model.
Open Scope string_scope.
Open Scope list_scope.
Open Scope Z_scope.

(* C157 full: nl_langinfo returns for each item the string of the current locale, nl_langinfo_l that of the locale given, and both the empty string for
   what is no item; in the "C" locale the strings are those of the standard.  They are those strftime uses: %a, %A, %b, %B, %p print the
   names, and %c, %x, %X, %r print what the formats of D_T_FMT, D_FMT, T_FMT, T_FMT_AMPM do.  RADIXCHAR and THOUSEP are localeconv's.
   Missing, refuted: CRNCYSTR; other locales; %c. *)
Theorem C157_items_partial : forall item v loc, c_value item v -> nl_langinfo item = v /\ nl_langinfo_l item loc = v.
Proof.
  intros item v loc H. unfold nl_langinfo_l. assert (E : nl_langinfo item = v); [|split; exact E].
  destruct H; try reflexivity.
  1, 2: assert (n = 1 \/ n = 2 \/ n = 3 \/ n = 4 \/ n = 5 \/ n = 6 \/ n = 7) as [->|[->|[->|[->|[->|[->| ->]]]]]] by lia; reflexivity.
  all: assert (n = 1 \/ n = 2 \/ n = 3 \/ n = 4 \/ n = 5 \/ n = 6 \/ n = 7 \/ n = 8 \/ n = 9 \/ n = 10 \/ n = 11 \/ n = 12)
    as [->|[->|[->|[->|[->|[->|[->|[->|[->|[->|[->| ->]]]]]]]]]]] by lia; reflexivity.
Qed.
Print Assumptions C157_items_partial.
Example C157_items_case : nl_langinfo (ABMON 9) = codes "Sep" /\ nl_langinfo (DAY 4) = codes "Wednesday".
Proof. split; [apply (C157_items_partial _ _ 0 (v_abmon 9 ltac:(lia)))|apply (C157_items_partial _ _ 0 (v_day 4 ltac:(lia)))]. Qed.
Theorem C157_no_item : forall item, 80 < item -> nl_langinfo item = [].
Proof. intros item H. unfold nl_langinfo. change (len STRING_TABLE) with 81. rewrite (proj2 (Z.ltb_ge _ _)) by lia. reflexivity. Qed.
Print Assumptions C157_no_item.
Example C157_no_item_case : nl_langinfo (2 ^ 64 - 1) = [].
Proof. apply C157_no_item. lia. Qed.

(* strftime prints the names *)
Theorem C157_names : forall mk t, tm_ok t ->
  prints mk (codes "%A") t (nl_langinfo (DAY (tm_wday t + 1))) /\ prints mk (codes "%a") t (nl_langinfo (ABDAY (tm_wday t + 1))) /\
  prints mk (codes "%B") t (nl_langinfo (MON (tm_mon t + 1))) /\ prints mk (codes "%b") t (nl_langinfo (ABMON (tm_mon t + 1))) /\
  prints mk (codes "%p") t (nl_langinfo (if tm_hour t <? 12 then AM_STR else PM_STR)).
Proof.
  intros mk t T. pose proof T as (_ & _ & Hr & _ & Mo & _ & Wd & _).
  assert (WL : len (weekday t) < 10 /\ len (abbrev (weekday t)) < 10).
  { unfold weekday. assert (tm_wday t = 0 \/ tm_wday t = 1 \/ tm_wday t = 2 \/ tm_wday t = 3 \/ tm_wday t = 4 \/ tm_wday t = 5 \/ tm_wday t = 6) as [->|[->|[->|[->|[->|[->| ->]]]]]] by lia; split; reflexivity. }
  assert (ML : len (month t) < 10 /\ len (abbrev (month t)) < 10).
  { unfold month. assert (tm_mon t = 0 \/ tm_mon t = 1 \/ tm_mon t = 2 \/ tm_mon t = 3 \/ tm_mon t = 4 \/ tm_mon t = 5 \/ tm_mon t = 6 \/ tm_mon t = 7 \/ tm_mon t = 8 \/ tm_mon t = 9 \/ tm_mon t = 10 \/ tm_mon t = 11)
      as [->|[->|[->|[->|[->|[->|[->|[->|[->|[->|[->| ->]]]]]]]]]]] by lia; split; reflexivity. }
  rewrite (proj1 (C157_items_partial _ _ 0 (v_day (tm_wday t + 1) ltac:(lia)))), (proj1 (C157_items_partial _ _ 0 (v_abday (tm_wday t + 1) ltac:(lia)))),
    (proj1 (C157_items_partial _ _ 0 (v_mon (tm_mon t + 1) ltac:(lia)))), (proj1 (C157_items_partial _ _ 0 (v_abmon (tm_mon t + 1) ltac:(lia)))).
  unfold nth_name. replace (tm_wday t + 1 - 1) with (tm_wday t) by lia. replace (tm_mon t + 1 - 1) with (tm_mon t) by lia.
  assert (In (ch "A") (codes "aAbBhp") /\ In (ch "a") (codes "aAbBhp") /\ In (ch "B") (codes "aAbBhp") /\ In (ch "b") (codes "aAbBhp") /\ In (ch "p") (codes "aAbBhp")) as (I1 & I2 & I3 & I4 & I5)
    by (vm_compute; tauto).
  split; [|split; [|split; [|split]]].
  - apply (name_printed mk (ch "A") t (weekday t) T I1); [constructor|lia].
  - apply (name_printed mk (ch "a") t (abbrev (weekday t)) T I2); [constructor|lia].
  - apply (name_printed mk (ch "B") t (month t) T I3); [constructor|lia].
  - apply (name_printed mk (ch "b") t (abbrev (month t)) T I4); [constructor|lia].
  - replace (nl_langinfo (if tm_hour t <? 12 then AM_STR else PM_STR)) with (ampm t) by (unfold ampm; destruct (tm_hour t <? 12); reflexivity).
    apply (name_printed mk (ch "p") t (ampm t) T I5); [constructor|unfold ampm; destruct (tm_hour t <? 12); reflexivity].
Qed.
Print Assumptions C157_names.
Definition nov16 : tm := mk_tm 9 5 14 16 10 126 1 319 0 3600 (Some (codes "CET")).
Definition nomk (t : tm) : Z * tm := (0, t).
Lemma nov16_ok : tm_ok nov16.
Proof.
  unfold tm_ok. cbn [tm_sec tm_min tm_hour tm_mday tm_mon tm_year tm_wday tm_yday tm_gmtoff tm_zone nov16].
  repeat (split; [lia|]). exists (codes "CET"). split; [reflexivity|]. repeat constructor; vm_compute; congruence.
Qed.
Example C157_names_case : prints nomk (codes "%A") nov16 (codes "Monday") /\ prints nomk (codes "%p") nov16 (codes "PM").
Proof. pose proof (C157_names nomk nov16 nov16_ok) as (A & _ & _ & _ & B). split; [exact A|exact B]. Qed.

(* the formats print what the standard says of the conversion they stand for *)
Theorem C157_formats : forall mk t c item, tm_ok t -> stands_for c item -> (c = ch "x" -> 0 <= tm_year t) ->
  exists o, conv_out t c o /\ prints mk (nl_langinfo item) t o.
Proof. exact formats_printed. Qed.
Print Assumptions C157_formats.
Example C157_formats_case : prints nomk (nl_langinfo D_T_FMT) nov16 (codes "Mon Nov 16 14:05:09 2026").
Proof.
  destruct (C157_formats nomk nov16 _ _ nov16_ok f_c ltac:(discriminate)) as (o & C & P). inversion C as [| | | | | | | | | | | | | | | | | | | | | | | | | | | | | |y D E| | | |]; try discriminate.
  replace (codes "Mon Nov 16 14:05:09 2026") with o; [exact P|]. subst o.
  rewrite (decimal_inj _ y (codes "2026") D (decimal_dec 2026)). reflexivity.
Qed.
(* and but for %c, the conversion prints the same, for any struct *)
Theorem C157_conversions_partial : forall mk m s maxsize t c item, stands_for c item -> c <> ch "c" ->
  strftime mk m s maxsize [37; c] t = strftime mk m s maxsize (nl_langinfo item) t.
Proof.
  intros mk m s n t c item H N. destruct H; [contradiction| | |]; reflexivity.
Qed.
Print Assumptions C157_conversions_partial.
Example C157_conversions_case : exists m m', strftime nomk (mem_of 100 [7; 7; 7; 7; 7; 7; 7; 7; 7]) 100 9 (codes "%X") nov16 = Ok (m, nov16, 8) /\
  strftime nomk (mem_of 100 [7; 7; 7; 7; 7; 7; 7; 7; 7]) 100 9 (nl_langinfo T_FMT) nov16 = Ok (m', nov16, 8).
Proof.
  eexists. eexists. split; [vm_compute; reflexivity|]. rewrite <- (C157_conversions_partial _ _ _ _ _ _ _ f_X) by discriminate. vm_compute. reflexivity.
Qed.
(* localeconv, until setlocale is called *)
Theorem C157_localeconv : forall w t, Locale_model.global w = None -> Locale_model.thread w t = 0 ->
  exists v, Locale_model.localeconv w t = Ok v /\ nl_langinfo RADIXCHAR = v Locale_model.decimal_point /\ nl_langinfo THOUSEP = v Locale_model.thousands_sep.
Proof. intros w t G T. unfold Locale_model.localeconv, Locale_model.uselocale. rewrite T, G. exists Locale_model.posix_lconv. repeat split; reflexivity. Qed.
Print Assumptions C157_localeconv.
Example C157_localeconv_case : exists v, Locale_model.localeconv (Locale_model.World None (fun _ => 0) (fun _ => None) 1) 5 = Ok v /\ v Locale_model.decimal_point = codes ".".
Proof.
  destruct (C157_localeconv (Locale_model.World None (fun _ => 0) (fun _ => None) 1) 5 eq_refl eq_refl) as (v & A & B & _). exists v. split; [exact A|]. rewrite <- B. reflexivity.
Qed.
(* %c prints nothing *)
Theorem C157_date_and_time_refuted : exists m t, stands_for (ch "c") D_T_FMT /\ tm_ok t /\
  (exists m', strftime nomk m 100 30 [37; ch "c"] t = Ok (m', t, 0)) /\ exists m', strftime nomk m 100 30 (nl_langinfo D_T_FMT) t = Ok (m', t, 24).
Proof.
  exists (mem_of 100 (repeat 7 30)), nov16. split; [constructor|]. split; [apply nov16_ok|]. split; eexists; vm_compute; reflexivity.
Qed.
Print Assumptions C157_date_and_time_refuted.
(* CRNCYSTR is "-" in the "C" locale: no symbol; "." says that the symbol takes the place of the radix character *)
Theorem C157_currency_refuted : nl_langinfo CRNCYSTR <> codes "-" /\ nl_langinfo CRNCYSTR = codes ".".
Proof. split; [discriminate|reflexivity]. Qed.
Print Assumptions C157_currency_refuted.
(* a locale set with setlocale is not followed, nor is one given to nl_langinfo_l *)
Definition files1 (n : list Z) : option (list (list Z)) := Some [codes "decimal_point "",""" ].
Definition start : Locale_model.world := Locale_model.World None (fun _ => 0) (fun _ => None) 1.
Definition german : Locale_model.world := fst (Locale_model.setlocale files1 (fun _ => true) start 6 (Some (codes "de_DE"))).
Theorem C157_locale_refuted : snd (Locale_model.setlocale files1 (fun _ => true) start 6 (Some (codes "de_DE"))) <> None /\
  (match Locale_model.localeconv german 5 with Ok v => Some (v Locale_model.decimal_point) | _ => None end) = Some (codes ",") /\ nl_langinfo RADIXCHAR = codes "." /\
  match Locale_model.newlocale files1 start 16 (codes "de_DE") 0 with
  | Ok (w, loc) => match Locale_model.heap w loc with Some x => Locale_model.contents x Locale_model.decimal_point = codes "," /\ nl_langinfo_l RADIXCHAR loc = codes "." | None => False end
  | _ => False
  end.
Proof. split; [vm_compute; discriminate|]. split; [vm_compute; reflexivity|]. split; [reflexivity|]. vm_compute. split; reflexivity. Qed.
Print Assumptions C157_locale_refuted.
