(** C15, C16, C17, C54: integer parsing and radix-64.  Theorems only; lemmas are in
    Strto_proofs.v and Strto_proofs2.v. *)
From Coq Require Import String.
From Verif Require Import Base String_spec Ctype_spec Strto_model Strto_spec Strto_proofs Strto_proofs2.
Open Scope string_scope.
Open Scope list_scope.
Open Scope Z_scope.

(** The specification relation is defined for every text and every valid base, so the
    [subject] hypotheses below exclude nothing. *)
Theorem C15_subject_exists : forall base text, valid_base base ->
  exists neg n used ds, subject base text neg n used ds.
Proof. exact subject_total. Qed.
Print Assumptions C15_subject_exists.

(** Full statement: the same without [no_quirk] and without the exclusion of LONG_MIN
    (all three exclusions are refuted below).  [no_quirk]: not a bare 0x in base 0 or
    16, and in base 8 the first digit is 0. *)
Theorem C15_strtol_partial : forall fuel m s base text neg n used ds,
  valid_base base -> cstr m s text -> (length text < fuel)%nat ->
  subject base text neg n used ds -> ds <> [] -> no_quirk base text ds ->
  ~ (neg = true /\ n = 2 ^ 63) ->
  strtol fuel m s base =
    Ok {| value := fst (signed_result (- 2 ^ 63) (2 ^ 63 - 1) neg n); endp := s + used;
          err := snd (signed_result (- 2 ^ 63) (2 ^ 63 - 1) neg n) |}.
Proof. exact strtol_ok. Qed.
Print Assumptions C15_strtol_partial.

Theorem C15_strtoll_partial : forall fuel m s base text neg n used ds,
  valid_base base -> cstr m s text -> (length text < fuel)%nat ->
  subject base text neg n used ds -> ds <> [] -> no_quirk base text ds ->
  ~ (neg = true /\ n = 2 ^ 63) ->
  strtoll fuel m s base =
    Ok {| value := fst (signed_result (- 2 ^ 63) (2 ^ 63 - 1) neg n); endp := s + used;
          err := snd (signed_result (- 2 ^ 63) (2 ^ 63 - 1) neg n) |}.
Proof. exact strtol_ok. Qed.
Print Assumptions C15_strtoll_partial.

Theorem C15_strtoul_partial : forall fuel m s base text neg n used ds,
  valid_base base -> cstr m s text -> (length text < fuel)%nat ->
  subject base text neg n used ds -> ds <> [] -> no_quirk base text ds ->
  strtoul fuel m s base =
    Ok {| value := fst (unsigned_result neg n); endp := s + used; err := snd (unsigned_result neg n) |}.
Proof. exact strtoul_ok. Qed.
Print Assumptions C15_strtoul_partial.

Theorem C15_strtoull_partial : forall fuel m s base text neg n used ds,
  valid_base base -> cstr m s text -> (length text < fuel)%nat ->
  subject base text neg n used ds -> ds <> [] -> no_quirk base text ds ->
  strtoull fuel m s base =
    Ok {| value := fst (unsigned_result neg n); endp := s + used; err := snd (unsigned_result neg n) |}.
Proof. exact strtoul_ok. Qed.
Print Assumptions C15_strtoull_partial.

(** No digits: value 0, end pointer at nptr (errno EINVAL, which POSIX allows). *)
Theorem C15_no_conversion : forall f, In f [strtol; strtoll; strtoul; strtoull] ->
  forall fuel m s base text neg n used,
  valid_base base -> cstr m s text -> (length text < fuel)%nat ->
  subject base text neg n used [] -> (base = 0 \/ base = 16 -> ~ bare_0x text) ->
  f fuel m s base = Ok {| value := 0; endp := s; err := Some 22 |}.
Proof.
  intros f [<-|[<-|[<-|[<-|[]]]]] *; intros;
    eapply strto_none_ok; eassumption.
Qed.
Print Assumptions C15_no_conversion.

(** Invalid base: 0 and EINVAL, nothing is read (the memory is arbitrary). *)
Theorem C15_bad_base : forall f, In f [strtol; strtoll; strtoul; strtoull] ->
  forall fuel m s base, ~ valid_base base ->
  f fuel m s base = Ok {| value := 0; endp := s; err := Some 22 |}.
Proof. intros f [<-|[<-|[<-|[<-|[]]]]] *; apply strto_badbase. Qed.
Print Assumptions C15_bad_base.

Definition mk (t : string) : mem := mem_of 1000 (codes t ++ [0]).

(** strtol("755", &e, 8) must be 493 with e at the end; the code insists on a leading
    0 (convert_octal) and reports no conversion. *)
Theorem C15_strtol_refuted_octal :
  cstr (mk "755") 1000 (codes "755") /\ numeral 8 (codes "755") 493 /\
  strtol 9 (mk "755") 1000 8 = Ok {| value := 0; endp := 1000; err := Some 22 |}.
Proof.
  split; [split; [repeat constructor; lia|vm_compute; auto 9]|]. split; [|vm_compute; reflexivity].
  change 493 with (((0 * 8 + 7) * 8 + 5) * 8 + 5).
  change (codes "755") with ((([] ++ [55]) ++ [53]) ++ [53]).
  repeat (apply num_snoc; [|left; vm_compute; split; [reflexivity|discriminate]|lia]). constructor.
Qed.
Print Assumptions C15_strtol_refuted_octal.

(** strtol("0x", &e, 16) must convert the "0" (value 0, e just after it); the code
    reports no conversion. *)
Theorem C15_strtol_refuted_bare_0x :
  cstr (mk "0xg") 1000 (codes "0xg") /\ subject 16 (codes "0xg") false 0 1 [48] /\
  strtol 9 (mk "0xg") 1000 16 = Ok {| value := 0; endp := 1000; err := Some 22 |}.
Proof.
  split; [split; [repeat constructor; lia|vm_compute; auto 9]|]. split; [|vm_compute; reflexivity].
  assert (NH : ~ hex_prefixed (codes "0xg")).
  { intros [x [h [t [E [_ D]]]]]. change (codes "0xg") with [48;120;103] in E. injection E as <- <- <-.
    apply is_digit_iff in D. revert D. vm_compute. intuition discriminate. }
  constructor. exists [], [], [], [120;103], 16.
  split; [reflexivity|]. split; [constructor|]. split; [cbn; intuition lia|]. split; [constructor|].
  split; [intros _; cbn; intuition lia|].
  split; [apply radix_plain; [lia|intros [_ H]; exact (NH H)]|].
  split; [change 0 with (0 * 16 + 0); apply (num_snoc 16 [] 0 48 0); [constructor|left; vm_compute; split; [reflexivity|discriminate]|lia]|].
  split; [|reflexivity]. cbn [ends]. rewrite is_digit_iff. vm_compute. intuition discriminate.
Qed.
Print Assumptions C15_strtol_refuted_bare_0x.

(** strtol("-9223372036854775808") is representable: no ERANGE is due. *)
Theorem C15_strtol_refuted_long_min :
  cstr (mk "-9223372036854775808") 1000 (codes "-9223372036854775808") /\
  signed_result (- 2 ^ 63) (2 ^ 63 - 1) true (2 ^ 63) = (- 2 ^ 63, None) /\
  strtol 30 (mk "-9223372036854775808") 1000 10 =
    Ok {| value := - 2 ^ 63; endp := 1020; err := Some 34 |}.
Proof.
  split; [split; [vm_compute; repeat constructor; discriminate|vm_compute; tauto]|]. vm_compute. auto.
Qed.
Print Assumptions C15_strtol_refuted_long_min.

Example C15_case :
  strtol 30 (mk "  -0x1F,") 1000 0 = Ok {| value := -31; endp := 1007; err := None |} /\
  strtoul 40 (mk "99999999999999999999x") 1000 10 = Ok {| value := 2 ^ 64 - 1; endp := 1020; err := Some 34 |} /\
  strtol 40 (mk "zz") 1000 36 = Ok {| value := 1295; endp := 1002; err := None |}.
Proof. vm_compute. auto. Qed.
Example C15_hyp_case : subject 10 (codes "42") false 42 2 (codes "42") /\ no_quirk 10 (codes "42") (codes "42").
Proof.
  split; [|split; intros; lia]. constructor. exists [], [], [], [], 10.
  split; [reflexivity|]. split; [constructor|]. split; [cbn; intuition lia|]. split; [constructor|].
  split; [intros _; cbn; intuition lia|].
  split; [apply radix_plain; [lia|intros [? _]; lia]|].
  split; [|split; [exact I|reflexivity]].
  change 42 with ((0 * 10 + 4) * 10 + 2). change (codes "42") with (([] ++ [52]) ++ [50]).
  repeat (apply num_snoc; [|left; vm_compute; split; [reflexivity|discriminate]|lia]). constructor.
Qed.

(** atoi/atol/atoll: exact value whenever it is representable, no intermediate
    overflow (an overflow would be [Panic]); 0 when there are no digits. *)
Theorem C16_atoi : forall fuel m s text neg n used ds,
  cstr m s text -> (length text < fuel)%nat -> subject 10 text neg n used ds ->
  - 2 ^ 31 <= (if neg then - n else n) <= 2 ^ 31 - 1 ->
  atoi fuel m s = Ok (if neg then - n else n).
Proof. intros. eapply dec_num_ok; eauto; unfold INT_MIN, INT_MAX; lia. Qed.
Print Assumptions C16_atoi.

Theorem C16_atol : forall fuel m s text neg n used ds,
  cstr m s text -> (length text < fuel)%nat -> subject 10 text neg n used ds ->
  - 2 ^ 63 <= (if neg then - n else n) <= 2 ^ 63 - 1 ->
  atol fuel m s = Ok (if neg then - n else n) /\ atoll fuel m s = Ok (if neg then - n else n).
Proof. intros. split; eapply dec_num_ok; eauto; unfold LONG_MIN, LONG_MAX; lia. Qed.
Print Assumptions C16_atol.

Example C16_case : atoi 30 (mk " -0002147483648z") 1000 = Ok (- 2 ^ 31) /\ atol 30 (mk "+77") 1000 = Ok 77.
Proof. vm_compute. auto. Qed.

(** a64l (l64a v) = v for every 32-bit v (l64a takes the low 32 bits of a long). *)
Theorem C17_roundtrip : forall m s value, s <> NULL -> - 2 ^ 31 <= value < 2 ^ 31 ->
  bytes_at m s (l64a value ++ [0]) -> a64l m s = Ok value.
Proof. intros m s v H R B. pose proof (a64l_l64a m s v H B) as E. rewrite (to_i32_idem v R) in E. exact E. Qed.
Print Assumptions C17_roundtrip.

(** Shape of l64a's result: at most six characters, all from "./0-9A-Za-z", the most
    significant one (the last) not the digit zero. *)
Theorem C17_l64a_shape : forall value,
  (length (l64a value) <= 6)%nat /\
  Forall (fun c => In c (codes "./0123456789ABCDEFGHIJKLMNOPQRSTUVWXYZabcdefghijklmnopqrstuvwxyz")) (l64a value) /\
  forall pre c, l64a value = pre ++ [c] -> c <> 46.
Proof. intros v. split; [exact (l64a_length v)|]. split; [exact (l64a_chars v)|exact (l64a_msd v)]. Qed.
Print Assumptions C17_l64a_shape.

Example C17_case : l64a (-1) = codes "zzzzzz" /\ a64l (mk "zzzzz1") 1000 = Ok (-1) /\ l64a 0 = [] /\ l64a 100 = codes "Y/".
Proof. vm_compute. auto. Qed.

(** strtoumax behaves as strtoull. *)
Theorem C54_strtoumax_partial : forall fuel m s base text neg n used ds,
  valid_base base -> cstr m s text -> (length text < fuel)%nat ->
  subject base text neg n used ds -> ds <> [] -> no_quirk base text ds ->
  strtoumax fuel m s base =
    Ok {| value := fst (unsigned_result neg n); endp := s + used; err := snd (unsigned_result neg n) |}.
Proof. exact strtoul_ok. Qed.
Print Assumptions C54_strtoumax_partial.

(** strtoimax("9223372036854775808") must clamp to INTMAX_MAX with ERANGE; the code
    (CHECK_SIGN = false) returns INTMAX_MIN and leaves errno alone. *)
Theorem C54_strtoimax_refuted :
  signed_result (- 2 ^ 63) (2 ^ 63 - 1) false (2 ^ 63) = (2 ^ 63 - 1, Some 34) /\
  strtoimax 30 (mk "9223372036854775808") 1000 10 =
    Ok {| value := - 2 ^ 63; endp := 1019; err := None |}.
Proof. vm_compute. auto. Qed.
Print Assumptions C54_strtoimax_refuted.

(** Values representable without the top bit convert exactly. *)
Theorem C54_strtoimax_partial : forall fuel m s base text neg n used ds,
  valid_base base -> cstr m s text -> (length text < fuel)%nat ->
  subject base text neg n used ds -> ds <> [] -> no_quirk base text ds -> n < 2 ^ 63 ->
  strtoimax fuel m s base =
    Ok {| value := if neg then - n else n; endp := s + used; err := None |}.
Proof. exact strtoimax_ok. Qed.
Print Assumptions C54_strtoimax_partial.
