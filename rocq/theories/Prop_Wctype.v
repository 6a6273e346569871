(* C122 to C125: <wctype.h>, wcscasecmp, wcsncasecmp, wcswidth.  Theorems only;
   the lemmas are in Wctype_proofs*.v. *)
From Coq Require Import String.
From Verif Require Import Base String_spec Ctype_spec Ctype_proofs Wcs_spec Wctype_model Wctype_spec Wctype_proofs3.
Open Scope Z_scope.

(* Every class function answers yes or no for every wint_t. *)
Theorem C122_total : forall f w, In f classes -> wint w -> yes (f w) \/ no (f w).
Proof. exact total_ok. Qed.
Print Assumptions C122_total.

(* The inclusions of the standard. *)
Theorem C122_inside :
  inside iswupper iswalpha /\ inside iswlower iswalpha /\ inside iswalpha iswalnum /\ inside (sure iswdigit) iswalnum /\
  inside (sure iswdigit) (sure iswxdigit) /\ inside (sure iswxdigit) iswalnum /\ inside iswalnum (sure iswgraph) /\
  inside iswpunct (sure iswgraph) /\ inside (sure iswgraph) (sure iswprint) /\ inside (sure iswblank) (sure iswspace).
Proof. exact inside_ok. Qed.
Print Assumptions C122_inside.

(* The exclusions of the standard. *)
Theorem C122_apart :
  apart (sure iswcntrl) (sure iswprint) /\ apart iswpunct iswalnum /\ apart iswpunct (sure iswspace) /\
  apart (sure iswspace) iswalnum /\ apart (sure iswspace) (sure iswgraph) /\ apart (sure iswdigit) iswalpha.
Proof. exact apart_ok. Qed.
Print Assumptions C122_apart.

(* Surrogates, WEOF and everything beyond U+10FFFF are in no class. *)
Theorem C122_outside : forall f w, In f classes -> 55296 <= w < 57344 \/ 1114112 <= w < 2 ^ 32 -> no (f w).
Proof. exact outside_ok. Qed.
Print Assumptions C122_outside.

(* On ASCII the classes are those of the POSIX locale. *)
Theorem C122_ascii :
  ascii_as iswalnum (fun c => In c (digits ++ uppers ++ lowers)) /\
  ascii_as iswalpha (fun c => In c (uppers ++ lowers)) /\
  ascii_as (sure iswblank) (fun c => In c blanks) /\
  ascii_as (sure iswcntrl) (fun c => 0 <= c <= 31 \/ c = 127) /\
  ascii_as (sure iswdigit) (fun c => In c digits) /\
  ascii_as (sure iswgraph) (fun c => In c (digits ++ uppers ++ lowers ++ puncts)) /\
  ascii_as iswlower (fun c => In c lowers) /\
  ascii_as (sure iswprint) (fun c => In c (32 :: digits ++ uppers ++ lowers ++ puncts)) /\
  ascii_as iswpunct (fun c => In c puncts) /\
  ascii_as (sure iswspace) (fun c => In c spaces) /\
  ascii_as iswupper (fun c => In c uppers) /\
  ascii_as (sure iswxdigit) (fun c => In c xdigits).
Proof.
  exact (conj (ascii_from 0 _ _ _ eq_refl eq_refl isalnum_ok) (conj (ascii_from 1 _ _ _ eq_refl eq_refl isalpha_ok)
   (conj (ascii_from 2 _ _ _ eq_refl eq_refl isblank_ok) (conj (ascii_from 3 _ _ _ eq_refl eq_refl iscntrl_ok)
   (conj (ascii_from 4 _ _ _ eq_refl eq_refl isdigit_ok) (conj (ascii_from 5 _ _ _ eq_refl eq_refl isgraph_ok)
   (conj (ascii_from 6 _ _ _ eq_refl eq_refl islower_ok) (conj (ascii_from 7 _ _ _ eq_refl eq_refl isprint_ok)
   (conj (ascii_from 8 _ _ _ eq_refl eq_refl ispunct_ok) (conj (ascii_from 9 _ _ _ eq_refl eq_refl isspace_ok)
   (conj (ascii_from 10 _ _ _ eq_refl eq_refl isupper_ok) (ascii_from 11 _ _ _ eq_refl eq_refl isxdigit_ok)))))))))))).
Qed.
Print Assumptions C122_ascii.

(* wctype finds each class by its name, and iswctype then asks that class; an unknown
   name gives 0, which contains nothing. *)
Theorem C122_names : forall i name f fuel m a, nth_error class_names i = Some name -> nth_error classes i = Some f ->
  cstr m a (codes name) -> (length (codes name) < fuel)%nat ->
  exists d, wctype fuel m a = Ok d /\ d <> 0 /\ forall w, iswctype w d = f w.
Proof. exact names_ok. Qed.
Print Assumptions C122_names.
Theorem C122_unknown : forall s fuel m a, cstr m a s -> (length s < fuel)%nat -> ~ In s (map codes class_names) ->
  wctype fuel m a = Ok 0 /\ forall w, no (iswctype w 0).
Proof. exact unknown_ok. Qed.
Print Assumptions C122_unknown.

(* Greek capital delta; an em space; the last CJK ideograph of plane 2. *)
Example C122_case : wint 916 /\ yes (iswupper 916) /\ yes (iswalpha 916) /\ yes (sure iswspace 8195) /\ no (iswalpha 8195) /\
  yes (iswalpha 196605) /\ no (iswalpha 196606) /\ wctype 9 (mem_of 100 (codes "punct" ++ [0])) 100 = Ok 9.
Proof. unfold wint. repeat match goal with |- _ /\ _ => split end; try lia; try (vm_compute; reflexivity);
  eexists; split; try (vm_compute; reflexivity); discriminate. Qed.

(* towlower and towupper are the simple case mappings of Unicode, for every wint_t. *)
Theorem C123_unicode : forall w, wint w -> towlower w = Ok (uni_lower w) /\ towupper w = Ok (uni_upper w).
Proof. exact unicode_ok. Qed.
Print Assumptions C123_unicode.

(* Mapping twice is mapping once. *)
Theorem C123_idempotent : forall w l u, wint w -> towlower w = Ok l -> towupper w = Ok u ->
  towlower l = Ok l /\ towupper u = Ok u /\ wint l /\ wint u.
Proof. exact idem_ok. Qed.
Print Assumptions C123_idempotent.

(* An upper-case letter goes to another letter, which is lower case and not upper case;
   what is not upper case stays; and the other way round. *)
Theorem C123_cased : forall w, wint w ->
  (yes (iswupper w) -> exists l, towlower w = Ok l /\ l <> w /\ yes (iswlower l) /\ no (iswupper l) /\ yes (iswalpha l)) /\
  (no (iswupper w) -> towlower w = Ok w) /\
  (yes (iswlower w) -> exists u, towupper w = Ok u /\ u <> w /\ yes (iswupper u) /\ no (iswlower u) /\ yes (iswalpha u)) /\
  (no (iswlower w) -> towupper w = Ok w).
Proof. exact cased_ok. Qed.
Print Assumptions C123_cased.

(* wctrans finds the two mappings by name, and towctrans applies them. *)
Theorem C123_trans : forall fuel m a s, cstr m a s -> (length s < fuel)%nat -> exists t, wctrans fuel m a = Ok t /\
  (s = codes "toupper" -> t <> 0 /\ forall w, towctrans w t = towupper w) /\
  (s = codes "tolower" -> t <> 0 /\ forall w, towctrans w t = towlower w) /\
  (s <> codes "toupper" -> s <> codes "tolower" -> t = 0 /\ forall w, towctrans w t = Ok w).
Proof. exact trans_ok. Qed.
Print Assumptions C123_trans.

(* Cyrillic, the Kelvin sign, the title-case digraph Dz, WEOF. *)
Example C123_case : towlower 1046 = Ok 1078 /\ towupper 1078 = Ok 1046 /\ towlower 8490 = Ok 107 /\
  towlower 498 = Ok 499 /\ towupper 498 = Ok 497 /\ towlower 4294967295 = Ok 4294967295.
Proof. vm_compute. auto 9. Qed.

(* wcscasecmp orders two wide strings as their lower-case forms. *)
Theorem C124_wcscasecmp : forall s k fuel m a b, wstr m a s -> wstr m b k -> wchars s -> wchars k -> (length s < fuel)%nat ->
  exists r, wcscasecmp fuel m a b = Ok r /\ folded r s k.
Proof. exact wcscasecmp_ok. Qed.
Print Assumptions C124_wcscasecmp.

(* wcsncasecmp looks at no more than n characters of each. *)
Theorem C124_wcsncasecmp : forall s k fuel m a b n, wbstr m a n s -> wbstr m b n k -> wchars s -> wchars k ->
  (length s < fuel)%nat -> exists r, wcsncasecmp fuel m a b n = Ok r /\ folded r s k.
Proof. exact wcsncasecmp_all. Qed.
Print Assumptions C124_wcsncasecmp.

Example C124_case : let m := mem_of 100 [1046; 65; 0; 1078; 97; 98; 0] in
  wstr m 100 [1046; 65] /\ wstr m 103 [1078; 97; 98] /\ wcscasecmp 9 m 100 103 = Ok (-98) /\ wcsncasecmp 9 m 100 103 2 = Ok 0.
Proof.
  cbv zeta. split; [split; [repeat constructor; discriminate|vm_compute; auto 9]|].
  split; [split; [repeat constructor; discriminate|vm_compute; auto 9]|]. vm_compute. auto.
Qed.

(* wcswidth on exactly n characters is the number of their columns.  Missing: a string that
   ends before n, see the refutation.  The widths of single characters come from a
   dependency and are any function. *)
Theorem C125_wcswidth_partial : forall width, (forall c v, width c = Some v -> 0 <= v) ->
  forall s fuel m p n, bytes_at m p s -> len s = n -> (length s < fuel)%nat -> Forall a_char s ->
  columns width s < 2 ^ 31 -> wcswidth width fuel m p n = Ok (columns width s).
Proof. exact wcswidth_ok. Qed.
Print Assumptions C125_wcswidth_partial.

(* The terminator does not stop it: whatever the width of the terminator, the columns of
   the string "a" within 9 characters are not told. *)
Theorem C125_terminator_refuted : exists m p, wstr m p [97] /\
  forall width, width 97 = Some 1 -> columns width [97] = 1 /\ wcswidth width 20 m p 9 <> Ok 1.
Proof.
  exists (mem_of 100 [97; 0]), 100. split; [split; [repeat constructor; discriminate|vm_compute; auto]|].
  intros width W. cbn [columns]. rewrite W. split; [reflexivity|].
  unfold wcswidth. cbn [wcswidth_loop Z.leb Z.compare]. change (100 + 0) with 100. change (ld (mem_of 100 [97; 0]) 100) with (Ok 97).
  cbn [bind]. replace (wcwidth width 97) with 1 by (unfold wcwidth; change (u32 97) with 97; cbn; rewrite W; reflexivity).
  change (1 <? 0) with false. cbv iota. cbn [wcswidth_loop]. change (9 <=? 0 + 1) with false. cbv iota.
  change (ld (mem_of 100 [97; 0]) (100 + (0 + 1))) with (Ok 0). cbn [bind].
  destruct (wcwidth width 0 <? 0); [discriminate|]. cbn [wcswidth_loop]. change (9 <=? 0 + 1 + 1) with false. cbv iota.
  change (ld (mem_of 100 [97; 0]) (100 + (0 + 1 + 1))) with (@Fault Z). discriminate.
Qed.
Print Assumptions C125_terminator_refuted.

Example C125_case : wcswidth (fun c => if c <? 32 then None else if c <? 4352 then Some 1 else Some 2) 9
  (mem_of 100 [97; 12354; 98; 0]) 100 3 = Ok 4.
Proof. vm_compute. reflexivity. Qed.
