(** C27, C28: strftime and strptime.  [conv_out], [expands], [agrees] and the items of
    the round trip are defined in Time_spec.v; [zone_ok] says that tm_zone points to an
    ASCII string. *)
From Coq Require Import String.
From Verif Require Import Base Ctype_spec Writer_model Writer_proofs Time_model Time_spec Time_proofs Time_proofs2 Time_proofs3.
Open Scope string_scope.
Open Scope list_scope.
Open Scope Z_scope.

(** For every format and every struct there is one output [o] (shorter than 2^64 bytes,
    free of NULs) such that with a buffer of any size: nothing outside the buffer
    changes; the result is the length of [o] when it fits with its NUL and 0 otherwise
    (or always 0 for an unsupported conversion); a positive result means that the buffer
    starts with [o] and a NUL.  [mk] is mktime, used by %s. *)
Theorem C27_strftime : forall mk fmt t,
  (forall t, zone_ok t -> zone_ok (snd (mk t))) -> zone_ok t -> Forall (fun c => c <> 0) fmt ->
  (forall ps t' b, sf_inner 3 mk fmt t = Ok (ps, t', b) -> len (concat ps) < 2 ^ 64) ->
  exists o ok t', ~ In 0 o /\ forall m s maxsize, 0 <= maxsize < 2 ^ 64 -> mapped m s maxsize ->
  exists m', strftime mk m s maxsize fmt t = Ok (m', t', if ok && (len o <? maxsize) then len o else 0) /\
    (forall x, ~ s <= x < s + maxsize -> m' x = m x) /\
    (0 < len o < maxsize -> stored m m' s (o ++ [0])).
Proof. exact strftime_any. Qed.
Print Assumptions C27_strftime.

(** For formats whose conversions follow the standard, [o] is the standard's expansion. *)
Theorem C27_strftime_standard : forall mk fmt t o, tm_ok t -> expands (agrees t) t fmt o -> len o < 2 ^ 64 ->
  forall m s maxsize, 0 <= maxsize < 2 ^ 64 -> mapped m s maxsize ->
  exists m', strftime mk m s maxsize fmt t = Ok (m', t, if len o <? maxsize then len o else 0) /\
    (forall x, ~ s <= x < s + maxsize -> m' x = m x) /\
    (0 < len o < maxsize -> stored m m' s (o ++ [0])).
Proof. exact strftime_std. Qed.
Print Assumptions C27_strftime_standard.

(** 16 November 2026, 14:05:09, a Monday. *)
Definition nov16 : tm := mk_tm 9 5 14 16 10 126 1 319 0 3600 (Some (codes "CET")).
Definition nomk (t : tm) : Z * tm := (0, t).
(** What the code prints for a format. *)
Definition printed (fmt : string) (t : tm) : option (list Z) :=
  match sf_inner 3 nomk (codes fmt) t with Ok (ps, _, true) => Some (concat ps) | _ => None end.

Lemma nov16_ok : tm_ok nov16.
Proof.
  unfold tm_ok. cbn [tm_sec tm_min tm_hour tm_mday tm_mon tm_year tm_wday tm_yday tm_gmtoff tm_zone nov16].
  repeat (split; [lia|]). exists (codes "CET"). split; [reflexivity|]. repeat constructor; vm_compute; congruence.
Qed.

Example C27_case : exists m',
  strftime nomk (mem_of 100 [7; 7; 7; 7; 7; 7; 7; 7; 7]) 101 6 (codes "%H:%M") nov16 = Ok (m', nov16, 5) /\
  m' 100 = Some 7 /\ m' 101 = Some 49 /\ m' 105 = Some 53 /\ m' 106 = Some 0 /\ m' 107 = Some 7.
Proof. eexists. split; [vm_compute; reflexivity|]. vm_compute. auto. Qed.
Example C27_case_truncated : exists m',
  strftime nomk (mem_of 100 [7; 7; 7; 7; 7; 7; 7; 7; 7]) 101 5 (codes "%H:%M") nov16 = Ok (m', nov16, 0).
Proof. eexists. vm_compute. reflexivity. Qed.

(** An empty output leaves the buffer unterminated: no NUL is stored. *)
Theorem C27_empty_output_stores_nothing :
  forall mk m s maxsize t, strftime mk m s maxsize [] t = Ok (m, t, 0).
Proof.
  intros mk m s n t. unfold strftime. cbn [sf_inner sf_loop bind cw_write_all]. destruct (0 <? n); reflexivity.
Qed.
Print Assumptions C27_empty_output_stores_nothing.

(** Every format over the agreeing conversions prints the standard's expansion and
    leaves the struct alone.  Missing for the full claim: the refutations below. *)
Theorem C28_strftime_fields_partial : forall mk t fmt o, tm_ok t -> expands (agrees t) t fmt o ->
  exists ps, sf_inner 3 mk fmt t = Ok (ps, t, true) /\ concat ps = o.
Proof. exact expands_good. Qed.
Print Assumptions C28_strftime_fields_partial.

Example C28_fields_case : exists o,
  expands (agrees nov16) nov16 (codes "%a %d %EY%%%z") o /\ o = codes "Mon 16 2026%+0100" /\
  printed "%a %d %EY%%%z" nov16 = Some o.
Proof.
  eexists. split; [|split].
  - eapply (ex_conv _ _ 97); [left; cbn; auto 40|exact (co_a _)|].
    apply (ex_lit _ _ 32); [vm_compute; congruence|lia|].
    eapply (ex_conv _ _ 100); [left; cbn; auto 40|exact (co_d _)|].
    apply (ex_lit _ _ 32); [vm_compute; congruence|lia|].
    eapply (ex_mod _ _ 69 89); [left; reflexivity|left; cbn; auto 40|apply (co_Y _ (codes "2026"))|].
    { exists [2; 0; 2; 6]. split; [|reflexivity]. repeat split; try discriminate. repeat constructor; lia. }
    eapply (ex_conv _ _ 37); [left; cbn; auto 40|exact (co_percent _)|].
    eapply (ex_conv _ _ 122); [left; cbn; auto 40|exact (co_z _)|]. apply ex_nil.
  - vm_compute. reflexivity.
  - vm_compute. reflexivity.
Qed.

(** %V is one week short on every day of a year that starts on a Thursday. *)
Theorem C28_week_number_refuted :
  conv_out nov16 (ch "V") (codes "47") /\ printed "%V" nov16 = Some (codes "46").
Proof. split; [exact (co_V nov16)|vm_compute; reflexivity]. Qed.
Print Assumptions C28_week_number_refuted.

(** 1 January 2024 (a Monday) is in week 1, reported as 52. *)
Definition jan1_2024 : tm := mk_tm 0 0 0 1 0 124 1 0 0 0 (Some []).
Theorem C28_week_one_refuted :
  conv_out jan1_2024 (ch "V") (codes "01") /\ printed "%V" jan1_2024 = Some (codes "52").
Proof. split; [exact (co_V jan1_2024)|vm_compute; reflexivity]. Qed.
Print Assumptions C28_week_one_refuted.

(** %U and %W lack the leading zero. *)
Theorem C28_week_padding_refuted :
  conv_out jan1_2024 (ch "U") (codes "00") /\ printed "%U" jan1_2024 = Some (codes "0") /\
  conv_out jan1_2024 (ch "W") (codes "01") /\ printed "%W" jan1_2024 = Some (codes "1").
Proof. split; [exact (co_U jan1_2024)|split; [vm_compute; reflexivity|split; [exact (co_W jan1_2024)|vm_compute; reflexivity]]]. Qed.
Print Assumptions C28_week_padding_refuted.

(** %C counts centuries as if 1901..2000 were the twentieth. *)
Theorem C28_century_refuted :
  conv_out nov16 (ch "C") (codes "20") /\ printed "%C" nov16 = Some (codes "21").
Proof. split; [exact (co_C nov16)|vm_compute; reflexivity]. Qed.
Print Assumptions C28_century_refuted.

(** %y is negative before 1900. *)
Definition y1850 : tm := mk_tm 0 0 0 1 0 (-50) 2 0 0 0 (Some []).
Theorem C28_two_digit_year_refuted :
  conv_out y1850 (ch "y") (codes "50") /\ printed "%y" y1850 = Some (codes "-50").
Proof. split; [exact (co_y y1850)|vm_compute; reflexivity]. Qed.
Print Assumptions C28_two_digit_year_refuted.

(** %c is not supported: the whole call fails. *)
Theorem C28_date_and_time_refuted :
  conv_out nov16 (ch "c") (codes "Mon Nov 16 14:05:09 2026") /\ printed "%c" nov16 = None.
Proof.
  split; [|vm_compute; reflexivity]. apply (co_c nov16 (codes "2026")).
  exists [2; 0; 2; 6]. split; [|reflexivity]. repeat split; try discriminate. repeat constructor; lia.
Qed.
Print Assumptions C28_date_and_time_refuted.

(** Round trip: strptime, given the printed string and the same format, stores exactly
    the fields named by the format and consumes the whole string.  Formats are any
    sequence of the items of Time_spec.v.  Missing: the conversions strptime refuses
    or misreads, refuted below. *)
Theorem C28_round_trip_partial : forall t l, tm_ok t -> items_ok t l ->
  exists o, expands (agrees t) t (fmt_of l) o /\
    forall t0, strptime o (fmt_of l) t0 = (sets l t t0, Some []).
Proof. exact round_trip_code. Qed.
Print Assumptions C28_round_trip_partial.

Definition zero_tm : tm := mk_tm 0 0 0 1 0 0 0 0 (-1) 0 None.
Example C28_round_trip_case :
  let l := [Date (Some 32); Clock12 (codes "h "); Lit 59; Conv (ch "M"); Conv (ch "S"); Conv (ch "a"); Conv (ch "j")] in
  items_ok nov16 l /\
  printed "%F %Ih %p;%M%S%a%j" nov16 = Some (codes "2026-11-16 02h PM;0509Mon320") /\
  fmt_of l = codes "%F %Ih %p;%M%S%a%j" /\
  strptime (codes "2026-11-16 02h PM;0509Mon320") (codes "%F %Ih %p;%M%S%a%j") zero_tm =
    (mk_tm 9 5 14 16 10 126 1 319 (-1) 0 None, Some []).
Proof.
  split; [|vm_compute; auto].
  cbv [items_ok item_ok sep_ok lit_ok]. vm_compute (codes "h "). vm_compute (codes "%aAbhBdHjmMST"). vm_compute (ch "M"). vm_compute (ch "S"). vm_compute (ch "a"). vm_compute (ch "j").
  vm_compute (year nov16). repeat split; try lia; try congruence; try (left; cbn [In]; auto 40; fail).
  repeat constructor; lia.
Qed.

(** strptime does not read what strftime's %e prints for single-digit days. *)
Theorem C28_space_padded_day_refuted :
  printed "%e" jan1_2024 = Some (codes " 1") /\ strptime (codes " 1") (codes "%e") zero_tm = (zero_tm, None).
Proof. vm_compute. auto. Qed.
Print Assumptions C28_space_padded_day_refuted.

(** %p adds 12 to an hour read by %H; before %I it is ignored. *)
Theorem C28_am_pm_refuted :
  tm_hour (fst (strptime (codes "14:05 PM") (codes "%H:%M %p") zero_tm)) = 26 /\
  strptime (codes "PM 02") (codes "%p %I") zero_tm = (set_hour zero_tm 2, Some []).
Proof. vm_compute. auto. Qed.
Print Assumptions C28_am_pm_refuted.

(** White space in the format does not match white space of a different length. *)
Theorem C28_white_space_refuted :
  snd (strptime (codes "14  05") (codes "%H %M") zero_tm) = None.
Proof. vm_compute. auto. Qed.
Print Assumptions C28_white_space_refuted.
