(* C132: strfmon. *)
From Coq Require Import ZArith String List Bool Lia.
From Verif Require Import Base Numeral Ctype_spec Strfmon_model Strfmon_spec Strfmon_proofs.
Import ListNotations.
Open Scope string_scope.
Open Scope list_scope.
Open Scope Z_scope.

(* C132 full: strfmon writes the text of the format, with each conversion replaced by the amount (sign or parentheses,
   symbol, digits in groups of three, fraction), never beyond the buffer, terminated, and returns its length, or -1.
   Missing: amounts whose digits are not three or fewer, or a multiple of three (refuted), the flags '(', '-', '=' and
   '#' and characters outside ASCII (refuted). *)
(* the buffer alone is written, and what is returned is the length of what is in it *)
Theorem C132_bounds : forall fuel buf fmt args, (length fmt < fuel)%nat -> (length fmt <= length args)%nat ->
  exists b r, strfmon fuel buf fmt args = Ok (b, r) /\ len b = len buf /\
    (r = -1 \/ exists t, r = len t /\ r < len buf /\ b = t ++ [0] ++ skipn (S (length t)) buf).
Proof.
  intros fuel buf fmt args FU AR. unfold strfmon. destruct (Z.eqb_spec (len buf) 0); [eauto 10|].
  destruct (go_total fuel buf 0 fmt args FU AR) as [[b r] E]. exists b, r. split; [exact E|].
  pose proof (go_sound buf fuel buf [] fmt args) as S. change (len []) with 0 in S. rewrite E in S.
  destruct S as [L R]; [split; [reflexivity|change (len []) with 0; pose proof (len_nonneg buf); lia]|]. split; [exact L|].
  destruct R as [->|(t & [HB HL] & ->)]; [auto|]. right. exists t. split; [reflexivity|]. rewrite len_app in HL. change (len [0]) with 1 in HL. split; [lia|].
  rewrite HB at 1. rewrite <- app_assoc. do 2 f_equal. f_equal. rewrite app_length. cbn. lia.
Qed.
Print Assumptions C132_bounds.
(* the text, and what becomes of it when there is no room *)
Theorem C132_text_partial : forall fuel buf items args out, produces items args out -> buf <> [] ->
  (length (concat (map text_of items)) < fuel)%nat ->
  exists b r, strfmon fuel buf (concat (map text_of items)) args = Ok (b, r) /\
    (if len out <? len buf then r = len out /\ b = out ++ [0] ++ skipn (S (length out)) buf else r = -1).
Proof.
  intros fuel buf items args out P NE FU. unfold strfmon. destruct (Z.eqb_spec (len buf) 0) as [Z0|].
  { destruct buf; [congruence|]. rewrite len_cons in Z0. pose proof (len_nonneg buf). lia. }
  destruct (go_produces buf items args out P fuel buf []) as (b & r & E & R); [split; [reflexivity|change (len []) with 0; pose proof (len_nonneg buf); lia]|exact FU|].
  change (len []) with 0 in E, R. cbn [app] in R. rewrite Z.add_0_l in R. exists b, r. split; [exact E|].
  destruct (len out <? len buf); [|exact R]. destruct R as [-> [HB _]]. split; [reflexivity|].
  rewrite HB at 1. rewrite <- app_assoc. do 2 f_equal. f_equal. rewrite app_length. cbn. lia.
Qed.
Print Assumptions C132_text_partial.
Definition amt (neg : bool) (i fr : Z) : amount := {| is_neg := neg; parts := fun d => if d =? 2 then Some (i, fr) else None |}.
(* "%!8n and %i" of -123.45 and 456789.07 *)
Definition an_example : list item := [Conv [33] [56] [] 110; Char 32; Percent; Conv [43] [] [46; 50] 105].
Example C132_text_case : produces an_example [amt true 123 45; amt false 456789 7] (codes " -123.45 %USD 456,789.07") /\
  strfmon 30 (repeat 7 30) (concat (map text_of an_example)) [amt true 123 45; amt false 456789 7] =
    Ok (codes " -123.45 %USD 456,789.07" ++ [0] ++ repeat 7 5, 24) /\
  strfmon 30 (repeat 7 24) (concat (map text_of an_example)) [amt true 123 45; amt false 456789 7] = Ok (codes " -123.45 %USD 456,789.07", -1).
Proof.
  split; [|split; vm_compute; reflexivity].
  assert (NT : forall n, 0 <= n -> numeral_text (map (fun d => 48 + d) (to_digits 10 n)) n) by (intros n N; exact (display_numeral n N)).
  unfold an_example.
  change (codes " -123.45 %USD 456,789.07") with (codes " -123.45" ++ (32 :: 37 :: codes "USD 456,789.07" ++ [])).
  eapply (p_conv [33] [56] (Some 8) [] None 110 (amt true 123 45) 123 45 (codes "-123.45")); try reflexivity; try lia.
  - constructor; [right; reflexivity|constructor].
  - cbn. repeat split; [discriminate|repeat constructor; lia].
  - intros ti T. left. rewrite (numeral_text_fun _ _ _ T (NT 123 ltac:(lia))). vm_compute. discriminate.
  - exists (codes "123"), (codes "123"), (codes ".45"). split; [exact (NT 123 ltac:(lia))|]. split; [apply g_small; cbn; lia|]. split; [|reflexivity].
    exists (codes "45"), O. split; [exact (NT 45 ltac:(lia))|split; reflexivity].
  - right. exists 1%nat. split; reflexivity.
  - apply p_char; [lia|lia|]. apply p_percent.
    eapply (p_conv [43] [] None [46; 50] (Some 2) 105 (amt false 456789 7) 456789 7 (codes "USD 456,789.07")); try reflexivity; try lia.
    + constructor; [left; reflexivity|constructor].
    + cbn. exists [50]. split; [reflexivity|]. repeat split; [discriminate|repeat constructor; lia].
    + intros ti T. right. rewrite (numeral_text_fun _ _ _ T (NT 456789 ltac:(lia))). vm_compute. split; [reflexivity|reflexivity].
    + exists (codes "456789"), (codes "456,789"), (codes ".07"). split; [exact (NT 456789 ltac:(lia))|]. split; [|split; [|reflexivity]].
      * change (codes "456789") with (codes "456" ++ [55; 56; 57]). change (codes "456,789") with (codes "456" ++ [44; 55; 56; 57]). apply g_more. apply g_small. cbn. lia.
      * exists (codes "7"), 1%nat. split; [exact (NT 7 ltac:(lia))|split; reflexivity].
    + apply p_nil.
Qed.

(* 1234.00 is "$123,4.00": the groups are counted from the left *)
Theorem C132_grouping_refuted : ~ (forall buf v i fr t, parts v 2 = Some (i, fr) -> money (is_neg v) false false i fr 2 t -> len t < len buf ->
  exists b, strfmon 10 buf (codes "%n") [v] = Ok (b, len t) /\ firstn (length t) b = t).
Proof.
  intros H. destruct (H (repeat 7 20) (amt false 1234 0) 1234 0 (codes "$1,234.00") eq_refl) as [b [E F]].
  - exists (codes "1234"), (codes "1,234"), (codes ".00"). split; [exact (display_numeral 1234 ltac:(lia))|]. split; [|split; [|reflexivity]].
    + change (codes "1234") with ([49] ++ [50; 51; 52]). change (codes "1,234") with ([49] ++ [44; 50; 51; 52]). apply g_more. apply g_small. cbn. lia.
    + exists (codes "0"), 1%nat. split; [exact (display_numeral 0 ltac:(lia))|split; reflexivity].
  - reflexivity.
  - vm_compute in E. injection E as <-. vm_compute in F. discriminate F.
Qed.
Print Assumptions C132_grouping_refuted.
(* "#5" for an amount of five digits changes nothing; for a smaller one the missing digits become zeros, where POSIX
   has the fill character, a space *)
Theorem C132_left_precision_partial : forall buf v i fr, parts v 2 = Some (i, fr) -> len (display i) = 5 ->
  strfmon 10 buf (codes "%#5n") [v] = strfmon 10 buf (codes "%n") [v].
Proof.
  intros buf v i fr P L. unfold strfmon. destruct (len buf =? 0); [reflexivity|].
  change (codes "%#5n") with [37; 35; 53; 110]. change (codes "%n") with [37; 110].
  change (go 10 buf 0 [37; 35; 53; 110] [v]) with (
    match format_monetary v {| left_justify := false; force_sign := false; space_sign := false; use_parens := false; suppress := false; width := None; lprec := Some 5; rprec := None; intl := false |} with
    | Some t => if len buf - 0 <? len t then Ok (buf, -1) else go 9 (blit buf 0 t) (0 + len t) [] [] | None => Ok (buf, -1) end).
  change (go 10 buf 0 [37; 110] [v]) with (
    match format_monetary v {| left_justify := false; force_sign := false; space_sign := false; use_parens := false; suppress := false; width := None; lprec := None; rprec := None; intl := false |} with
    | Some t => if len buf - 0 <? len t then Ok (buf, -1) else go 9 (blit buf 0 t) (0 + len t) [] [] | None => Ok (buf, -1) end).
  unfold format_monetary. cbn [rprec lprec]. rewrite P. cbn zeta iota beta. rewrite L. change (5 <? 5) with false. cbn iota.
  replace (pad0 5 (display i)) with (display i) by (unfold pad0; rewrite L; reflexivity). reflexivity.
Qed.
Print Assumptions C132_left_precision_partial.
Example C132_left_precision_case : len (display 12345) = 5 /\ strfmon 10 (repeat 7 11) (codes "%#5n") [amt false 12345 67] = strfmon 10 (repeat 7 11) (codes "%n") [amt false 12345 67].
Proof. split; reflexivity. Qed.
Theorem C132_left_precision_refuted : ~ (exists b, strfmon 10 (repeat 7 20) (codes "%#5n") [amt false 123 0] = Ok (b, 10) /\ firstn 10 b = codes "$   123.00") /\
  exists b, strfmon 10 (repeat 7 20) (codes "%#5n") [amt false 123 0] = Ok (b, 10) /\ firstn 10 b = codes "$001,23.00".
Proof. split; [intros (b & E & F); vm_compute in E; injection E as <-; vm_compute in F; discriminate F|]. eexists. split; vm_compute; reflexivity. Qed.
Print Assumptions C132_left_precision_refuted.
(* "%(n" of -5: "-$5.00", not "($5.00)"; '-' (left-justified) and "=c" (fill character) are refused; a number of digits
   smaller than the amount's, which is to be ignored, is refused *)
Theorem C132_flags_refuted :
  ~ (exists b, strfmon 10 (repeat 7 20) (codes "%(n") [amt true 5 0] = Ok (b, 7) /\ firstn 7 b = codes "($5.00)") /\
  (forall buf args, exists b, strfmon 10 buf (codes "%-10n") args = Ok (b, -1)) /\
  (forall buf args, exists b, strfmon 10 buf (codes "%=*#5n") args = Ok (b, -1)) /\
  (forall buf, exists b, strfmon 10 buf (codes "%#2n") [amt false 123 0] = Ok (b, -1)).
Proof.
  repeat split.
  - intros (b & E & F). vm_compute in E. discriminate E.
  - intros buf args. exists buf. unfold strfmon. destruct (len buf =? 0); reflexivity.
  - intros buf args. exists buf. unfold strfmon. destruct (len buf =? 0); reflexivity.
  - intros buf. exists buf. unfold strfmon. destruct (len buf =? 0); reflexivity.
Qed.
Print Assumptions C132_flags_refuted.
(* a character outside ASCII becomes one byte, not its UTF-8: "é" *)
Theorem C132_utf8_refuted : ~ (forall buf, (3 <= length buf)%nat -> exists b, strfmon 10 buf [233] [] = Ok (b, 2) /\ firstn 2 b = [195; 169]).
Proof. intros H. destruct (H [7; 7; 7]) as (b & E & _); [cbn; lia|]. vm_compute in E. discriminate E. Qed.
Print Assumptions C132_utf8_refuted.
