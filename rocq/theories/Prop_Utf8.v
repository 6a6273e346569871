(** C25 and C56: multibyte (UTF-8) conversion.  Theorems only; lemmas are in
    Utf8_proofs.v and Utf8_proofs2.v. *)
From Verif Require Import Base Utf8_model Utf8_spec Utf8_proofs Utf8_proofs2.

(** wcrtomb writes exactly the UTF-8 encoding of every scalar value, and nothing else. *)
Theorem C25_wcrtomb : forall m s wc, s <> NULL -> scalar wc -> mapped m s (len (utf8 wc)) ->
  exists m', wcrtomb m s wc = Ok (m', len (utf8 wc), None) /\ stored m m' s (utf8 wc).
Proof. exact wcrtomb_ok. Qed.
Print Assumptions C25_wcrtomb.
Example C25_wcrtomb_case : scalar 8364 /\ mapped (mem_of 10 [0; 0; 0]) 10 (len (utf8 8364)) /\ utf8 8364 = [226; 130; 172].
Proof. split; [unfold scalar; lia|]. split; [|reflexivity]. exact (bytes_at_mapped _ _ _ (mem_of_bytes 10 [0; 0; 0])). Qed.

Theorem C25_wcrtomb_error : forall m s wc, s <> NULL -> i32 wc -> ~ scalar wc ->
  wcrtomb m s wc = Ok (m, USIZE_MAX, Some EILSEQ).
Proof. exact wcrtomb_bad. Qed.
Print Assumptions C25_wcrtomb_error.
Example C25_wcrtomb_error_case : i32 55296 /\ ~ scalar 55296 /\ i32 (-1) /\ ~ scalar (-1).
Proof. unfold i32, scalar. lia. Qed.

Theorem C25_wctomb : forall m s wc, s <> NULL -> scalar wc -> mapped m s (len (utf8 wc)) ->
  exists m', wctomb m s wc = Ok (m', len (utf8 wc)) /\ stored m m' s (utf8 wc).
Proof. exact wctomb_ok. Qed.
Print Assumptions C25_wctomb.

(** Whatever bytes are available: mbrtowc succeeds exactly when they start with a
    well-formed character, and then reports that character and its length (0 for NUL). *)
Theorem C25_mbrtowc : forall m s bs, s <> NULL -> bs <> [] -> Forall is_byte bs -> bytes_at m s bs ->
  exists r wc e, mbrtowc m s (len bs) = Ok (r, wc, e) /\
    (forall c, starts_with_char bs c -> r = (if c =? 0 then 0 else len (utf8 c)) /\ wc = Some c /\ e = None) /\
    ((forall c, ~ starts_with_char bs c) -> (r = USIZE_MAX \/ r = USIZE_MAX - 1) /\ wc = None /\ e = Some EILSEQ).
Proof. exact mbrtowc_decodes. Qed.
Print Assumptions C25_mbrtowc.
Example C25_mbrtowc_case :
  starts_with_char [240; 159; 152; 128; 65] 128512 /\
  mbrtowc (mem_of 5 [240; 159; 152; 128; 65]) 5 5 = Ok (4, Some 128512, None) /\
  mbrtowc (mem_of 5 [192; 128]) 5 2 = Ok (USIZE_MAX, None, Some EILSEQ) /\
  mbrtowc (mem_of 5 [237; 160; 128]) 5 3 = Ok (USIZE_MAX, None, Some EILSEQ).
Proof. split; [split; [unfold scalar; lia|exists [65]; reflexivity]|]. vm_compute. auto. Qed.

Theorem C25_round_trip : forall m s wc n, s <> NULL -> scalar wc -> mapped m s (len (utf8 wc)) -> len (utf8 wc) <= n ->
  exists m' r, wcrtomb m s wc = Ok (m', r, None) /\
    mbrtowc m' s n = Ok (if wc =? 0 then 0 else r, Some wc, None).
Proof. exact roundtrip. Qed.
Print Assumptions C25_round_trip.
Example C25_round_trip_case : scalar 1114111 /\ len (utf8 1114111) = 4 /\ mapped (mem_of 8 [1; 1; 1; 1]) 8 4.
Proof. split; [unfold scalar; lia|]. split; [reflexivity|]. exact (bytes_at_mapped _ _ _ (mem_of_bytes 8 [1; 1; 1; 1])). Qed.

Theorem C25_mblen : forall m s bs, s <> NULL -> bs <> [] -> Forall is_byte bs -> bytes_at m s bs ->
  exists r, mblen m s (len bs) = Ok r /\
    (forall c, starts_with_char bs c -> r = if c =? 0 then 0 else len (utf8 c)) /\
    ((forall c, ~ starts_with_char bs c) -> r = -1).
Proof. exact mblen_ok. Qed.
Print Assumptions C25_mblen.

Theorem C25_encoded_length : forall c, scalar c -> get_char_encoded_length (hd 0 (utf8 c)) = Some (len (utf8 c)).
Proof. exact enc_len_utf8. Qed.
Print Assumptions C25_encoded_length.

Theorem C25_btowc : forall c, -1 <= c < 256 -> btowc c = Ok (if (0 <=? c) && (c <=? 127) then c else WEOF).
Proof. exact btowc_wctob. Qed.
Print Assumptions C25_btowc.

Theorem C25_wctob : forall c, 0 <= c < 2 ^ 32 ->
  (forall b, scalar c -> utf8 c = [b] -> wctob c = b) /\ (scalar c -> 1 < len (utf8 c) -> wctob c = -1) /\ (~ scalar c -> wctob c = -1).
Proof. exact wctob_ok. Qed.
Print Assumptions C25_wctob.
Example C25_wctob_case : wctob 65 = 65 /\ utf8 65 = [65] /\ wctob 233 = -1 /\ scalar 233 /\ wctob WEOF = -1.
Proof. split; [reflexivity|]. split; [reflexivity|]. split; [reflexivity|]. split; [unfold scalar; lia|reflexivity]. Qed.

(** ** C56 *)

(** Full statement: when no character starts the bytes, mbrtowc returns (size_t)-2 if they
    are a character cut short and (size_t)-1 otherwise, for every n (0 included), reading
    at most n bytes.  Missing: bytes already invalid but shorter than the announced width
    (refuted below), n = 0 (refuted below). *)
Theorem C56_incomplete_partial : forall m s bs, s <> NULL -> bs <> [] -> Forall is_byte bs -> bytes_at m s bs ->
  (forall c, ~ starts_with_char bs c) ->
  exists r, mbrtowc m s (len bs) = Ok (r, None, Some EILSEQ) /\
    (truncated_char bs -> r = USIZE_MAX - 1) /\ (4 <= len bs -> r = USIZE_MAX).
Proof. exact mbrtowc_classify. Qed.
Print Assumptions C56_incomplete_partial.
Example C56_incomplete_case : truncated_char [226; 130] /\ (forall c, ~ starts_with_char [226; 130] c) /\
  (forall c, ~ starts_with_char [226; 40; 161; 0] c).
Proof.
  split; [exists 8364, [172]; split; [unfold scalar; lia|split; [discriminate|reflexivity]]|].
  assert (H : forall bs, Forall is_byte bs -> bs <> [] -> mbrtowc (mem_of 1 bs) 1 (len bs) <> Fault ->
     (match mbrtowc (mem_of 1 bs) 1 (len bs) with Ok (_, None, _) => true | _ => false end) = true -> forall c, ~ starts_with_char bs c).
  { intros bs Hb Hn _ E c Hc. destruct (mbrtowc_decodes (mem_of 1 bs) 1 bs ltac:(discriminate) Hn Hb (mem_of_bytes 1 bs)) as [r [wc [e [Er [H1 _]]]]].
    destruct (H1 c Hc) as [_ [-> _]]. rewrite Er in E. discriminate. }
  split; apply H; try discriminate; try (vm_compute; reflexivity); repeat constructor; unfold is_byte; lia.
Qed.

(** 0xE2 0x28 can never become a character, yet the answer is "incomplete". *)
Theorem C56_invalid_reported_incomplete_refuted : exists m s bs,
  s <> NULL /\ bytes_at m s bs /\ Forall is_byte bs /\ ~ truncated_char bs /\
  (forall c, ~ starts_with_char bs c) /\ mbrtowc m s (len bs) = Ok (USIZE_MAX - 1, None, Some EILSEQ).
Proof.
  exists (mem_of 1 [226; 40]), 1, [226; 40]. split; [discriminate|]. split; [apply mem_of_bytes|].
  split; [repeat constructor; unfold is_byte; lia|].
  assert (A : forall c post, scalar c -> utf8 c = [226; 40] ++ post -> False).
  { intros c post Hc E. unfold utf8 in E. repeat (match type of E with context [?a <? ?b] => destruct (Z.ltb_spec a b) end);
      cbn [app] in E; injection E; intros; lia. }
  split; [intros [c [post [Hc [_ E]]]]; exact (A c post Hc E)|].
  split; [|vm_compute; reflexivity].
  intros c [Hc [post E]]. unfold utf8 in E. repeat (match type of E with context [?a <? ?b] => destruct (Z.ltb_spec a b) end);
    cbn [app] in E; injection E; intros; unfold scalar in Hc; lia.
Qed.
Print Assumptions C56_invalid_reported_incomplete_refuted.

(** With n = 0 no byte may be read, but the first one is. *)
Theorem C56_reads_beyond_n_refuted : exists m s, s <> NULL /\ mapped m s 0 /\ mbrtowc m s 0 = Fault.
Proof. exists (mem_of 1 []), 1. split; [discriminate|]. split; [intros x Hx; lia|reflexivity]. Qed.
Print Assumptions C56_reads_beyond_n_refuted.

(** mbsrtowcs on a valid string: min(n, length) characters, terminated when there is
    room, source pointer set to NULL or just past the last converted character. *)
Theorem C56_mbsrtowcs : forall fuel m wm dst src n cs, dst <> NULL -> 0 < src -> wide cs -> 0 <= n ->
  bytes_at m src (utf8_str cs ++ [0]) -> len (utf8_str cs) + 4 <= USIZE_MAX -> (length cs < fuel)%nat ->
  mapped wm dst (Z.min (len cs + 1) n) ->
  exists wm', mbsrtowcs fuel m wm dst src n =
      Ok (wm', Z.min n (len cs),
          if len cs <? n then NULL else src + len (utf8_str (firstn (Z.to_nat n) cs))) /\
    stored wm wm' dst (firstn (Z.to_nat n) (cs ++ [0])).
Proof. exact mbsrtowcs_ok. Qed.
Print Assumptions C56_mbsrtowcs.
Example C56_mbsrtowcs_case : wide [8364; 65] /\
  bytes_at (mem_of 1 [226; 130; 172; 65; 0]) 1 (utf8_str [8364; 65] ++ [0]) /\
  mbstowcs 3 (mem_of 1 [226; 130; 172; 65; 0]) (mem_of 20 [7; 7; 7]) NULL 1 0 = Ok (mem_of 20 [7; 7; 7], 2).
Proof. split; [repeat constructor; unfold scalar; lia|]. split; [exact (mem_of_bytes 1 [226; 130; 172; 65; 0])|vm_compute; reflexivity]. Qed.

Theorem C56_mbstowcs_count : forall fuel m wm src n cs, 0 < src -> wide cs ->
  bytes_at m src (utf8_str cs ++ [0]) -> len (utf8_str cs) + 4 <= USIZE_MAX -> (length cs < fuel)%nat ->
  mbstowcs fuel m wm NULL src n = Ok (wm, len cs).
Proof. exact mbstowcs_count. Qed.
Print Assumptions C56_mbstowcs_count.

(** An invalid sequence is reported as 1, a valid count, instead of (size_t)-1. *)
Theorem C56_mbsrtowcs_error_refuted : exists m wm dst src n,
  m src = Some 255 /\ mapped wm dst n /\ 0 < n /\
  exists wm' p, mbsrtowcs 2 m wm dst src n = Ok (wm', 1, p).
Proof.
  exists (mem_of 1 [255; 0]), (mem_of 9 [7; 7]), 9, 1, 2.
  split; [reflexivity|]. split; [exact (bytes_at_mapped _ _ _ (mem_of_bytes 9 [7; 7]))|]. split; [lia|].
  eexists _, _. vm_compute. reflexivity.
Qed.
Print Assumptions C56_mbsrtowcs_error_refuted.

(** With a null destination the source pointer must be left alone; it becomes NULL, so
    the usual "measure, then convert" pair of calls loses the string. *)
Theorem C56_measure_keeps_source_refuted : exists m wm src,
  bytes_at m src (utf8_str [65] ++ [0]) /\ mbsrtowcs 2 m wm NULL src 0 = Ok (wm, 1, NULL) /\ src <> NULL.
Proof. exists (mem_of 1 [65; 0]), (mem_of 1 []), 1. split; [exact (mem_of_bytes 1 [65; 0])|]. split; [reflexivity|discriminate]. Qed.
Print Assumptions C56_measure_keeps_source_refuted.

(** wcsrtombs writes whole characters only, as many as fit, and the NUL if it fits. *)
Theorem C56_wcsrtombs : forall fuel m wm dest src n cs, 0 < dest -> wide cs -> 0 <= n ->
  bytes_at wm src (cs ++ [0]) -> len cs + 4 <= USIZE_MAX -> (length cs < fuel)%nat ->
  mapped m dest (Z.min (len (utf8_str cs) + 1) n) ->
  exists m' pre, fits cs n pre /\
    ((len (utf8_str cs) < n /\ wcsrtombs fuel m wm dest src n = Ok (m', len (utf8_str cs), NULL) /\ stored m m' dest (utf8_str cs ++ [0])) \/
     (n <= len (utf8_str cs) /\ wcsrtombs fuel m wm dest src n = Ok (m', len (utf8_str pre), src + len pre) /\ stored m m' dest (utf8_str pre))).
Proof. exact wcsrtombs_ok. Qed.
Print Assumptions C56_wcsrtombs.
Example C56_wcsrtombs_case : wide [65; 8364] /\ bytes_at (mem_of 1 [65; 8364; 0]) 1 ([65; 8364] ++ [0]) /\
  mapped (mem_of 5 [9; 9; 9]) 5 (Z.min (len (utf8_str [65; 8364]) + 1) 3) /\ fits [65; 8364] 3 [65].
Proof.
  split; [repeat constructor; unfold scalar; lia|]. split; [exact (mem_of_bytes 1 [65; 8364; 0])|].
  split; [exact (bytes_at_mapped _ _ _ (mem_of_bytes 5 [9; 9; 9]))|]. exists [8364]. repeat split; vm_compute; congruence.
Qed.

(** A value that is no scalar makes the measuring call fail. *)
Theorem C56_wcsrtombs_error : forall wm m n cs c, wide cs -> i32 c -> ~ scalar c ->
  forall fuel src, bytes_at wm src (cs ++ [c]) -> len cs + 4 <= USIZE_MAX -> (length cs < fuel)%nat ->
  wcsrtombs fuel m wm NULL src n = Ok (m, USIZE_MAX, src + len cs).
Proof. intros wm m n cs c Hw Hi Hs fuel src Hb. exact (wcsn_bad wm m n cs c Hw Hi Hs fuel src 0 0 (Z.le_refl 0) Hb). Qed.
Print Assumptions C56_wcsrtombs_error.
