(* C117: the wide-character integer conversions.  Theorems only; lemmas are in
   Wcsto_proofs.v.  [subject] is the same specification as for strtol; by C15_subject_exists
   it is defined for every text and valid base. *)
From Coq Require Import String.
From Verif Require Import Base Ctype_spec Strto_model Strto_spec Strto_proofs Wcs_spec Wcsto_model Wcsto_proofs.
Open Scope string_scope.
Open Scope list_scope.
Open Scope Z_scope.

(* Full statement: also the clamped value with *endptr at the end of the digits when out of
   range, *endptr = nptr without digits, the "0" of a bare "0x", and an error for an invalid
   base; each is refuted below. *)
Theorem C117_wcstol_partial : forall f, In f [wcstol; wcstoll] ->
  forall fuel m s base text neg n used ds v,
  valid_base base -> wstr m s text -> (length text < fuel)%nat ->
  subject base text neg n used ds -> ds <> [] -> (base = 0 \/ base = 16 -> ~ bare_0x text) ->
  signed_result (- 2 ^ 63) (2 ^ 63 - 1) neg n = (v, None) ->
  f fuel m s base = Ok {| wvalue := v; wend := Some (s + used); werr := None |}.
Proof. intros f [<-|[<-|[]]]; exact wcstol_ok. Qed.
Print Assumptions C117_wcstol_partial.

Theorem C117_wcstoul_partial : forall f, In f [wcstoul; wcstoull] ->
  forall fuel m s base text neg n used ds v,
  valid_base base -> wstr m s text -> (length text < fuel)%nat ->
  subject base text neg n used ds -> ds <> [] -> (base = 0 \/ base = 16 -> ~ bare_0x text) ->
  unsigned_result neg n = (v, None) ->
  f fuel m s base = Ok {| wvalue := v; wend := Some (s + used); werr := None |}.
Proof. intros f [<-|[<-|[]]]; exact wcstoul_ok. Qed.
Print Assumptions C117_wcstoul_partial.

(* Out of range: errno is always ERANGE and an unsigned result is the right one. *)
Theorem C117_range_partial : forall fuel m s base text neg n used ds v,
  valid_base base -> wstr m s text -> (length text < fuel)%nat ->
  subject base text neg n used ds -> (base = 0 \/ base = 16 -> ~ bare_0x text) ->
  (signed_result (- 2 ^ 63) (2 ^ 63 - 1) neg n = (v, Some 34) ->
     forall f, In f [wcstol; wcstoll] -> exists w e, f fuel m s base = Ok {| wvalue := w; wend := e; werr := Some 34 |}) /\
  (unsigned_result neg n = (v, Some 34) ->
     forall f, In f [wcstoul; wcstoull] -> exists e, f fuel m s base = Ok {| wvalue := v; wend := e; werr := Some 34 |}).
Proof.
  intros * Hv Hs Hf Sub Q. split.
  - intros E f [<-|[<-|[]]]; eexists; eexists; eapply wcstol_range; eassumption.
  - intros E f [<-|[<-|[]]]; eexists; eapply wcstoul_range; eassumption.
Qed.
Print Assumptions C117_range_partial.

(* No digits: the value is 0 (where *endptr ends up: see the refutation). *)
Theorem C117_none_partial : forall f, In f [wcstol; wcstoll; wcstoul; wcstoull] ->
  forall fuel m s base text neg n used,
  valid_base base -> wstr m s text -> (length text < fuel)%nat ->
  subject base text neg n used [] -> (base = 0 \/ base = 16 -> ~ bare_0x text) ->
  exists e, f fuel m s base = Ok {| wvalue := 0; wend := Some e; werr := None |}.
Proof.
  intros f [<-|[<-|[<-|[<-|[]]]]] *; apply wcsto_none; unfold LONG_MIN, LONG_MAX, ULONG_MAX; lia.
Qed.
Print Assumptions C117_none_partial.

Definition wmk (t : string) : mem := mem_of 1000 (codes t ++ [0]).

(* wcstol(L"99999999999999999999;", &e, 10) must return LONG_MAX and store the address of the
   semicolon; the code returns -1 and leaves e as it was. *)
Theorem C117_overflow_refuted :
  wstr (wmk "99999999999999999999;") 1000 (codes "99999999999999999999;") /\
  fst (signed_result (- 2 ^ 63) (2 ^ 63 - 1) false 99999999999999999999) = 2 ^ 63 - 1 /\
  wcstol 30 (wmk "99999999999999999999;") 1000 10 = Ok {| wvalue := -1; wend := None; werr := Some 34 |}.
Proof.
  split; [split; [repeat constructor; unfold nz; discriminate|vm_compute; tauto]|].
  vm_compute. auto.
Qed.
Print Assumptions C117_overflow_refuted.

(* wcstol(L"  -x", &e, 10): no conversion, so e must be the argument; it is past the sign. *)
Theorem C117_no_digits_refuted :
  wstr (wmk "  -x") 1000 (codes "  -x") /\
  wcstol 30 (wmk "  -x") 1000 10 = Ok {| wvalue := 0; wend := Some 1003; werr := None |}.
Proof.
  split; [split; [repeat constructor; unfold nz; discriminate|vm_compute; tauto]|].
  vm_compute. auto.
Qed.
Print Assumptions C117_no_digits_refuted.

(* wcstol(L"0xg", &e, 16) must convert the "0" and leave e at the x. *)
Theorem C117_bare_0x_refuted :
  wstr (wmk "0xg") 1000 (codes "0xg") /\
  wcstol 30 (wmk "0xg") 1000 16 = Ok {| wvalue := 0; wend := Some 1002; werr := None |}.
Proof.
  split; [split; [repeat constructor; unfold nz; discriminate|vm_compute; tauto]|].
  vm_compute. auto.
Qed.
Print Assumptions C117_bare_0x_refuted.

(* An invalid base must give 0 and EINVAL: char::to_digit panics instead. *)
Theorem C117_base_refuted : forall base, In base [1; 37; -10] ->
  wstr (wmk "12") 1000 (codes "12") /\ ~ valid_base base /\ wcstol 30 (wmk "12") 1000 base = Panic.
Proof.
  intros base H. split; [split; [repeat constructor; unfold nz; discriminate|vm_compute; tauto]|].
  destruct H as [<-|[<-|[<-|[]]]]; (split; [unfold valid_base; lia|vm_compute; reflexivity]).
Qed.
Print Assumptions C117_base_refuted.

Example C117_case :
  wcstol 30 (wmk "  -0x1F,") 1000 0 = Ok {| wvalue := -31; wend := Some 1007; werr := None |} /\
  wcstol 30 (wmk "755") 1000 8 = Ok {| wvalue := 493; wend := Some 1003; werr := None |} /\
  wcstol 30 (wmk "-9223372036854775808") 1000 10 = Ok {| wvalue := - 2 ^ 63; wend := Some 1020; werr := None |} /\
  wcstoul 30 (wmk "-1") 1000 10 = Ok {| wvalue := 2 ^ 64 - 1; wend := Some 1002; werr := None |} /\
  wcstoul 30 (wmk "-0") 1000 0 = Ok {| wvalue := 0; wend := Some 1002; werr := None |}.
Proof. vm_compute. auto 9. Qed.
(* The hypotheses hold for the text of the first case. *)
Example C117_hyps :
  wstr (wmk "-0x1F,") 1000 (codes "-0x1F,") /\ subject 0 (codes "-0x1F,") true 31 5 (codes "1F") /\
  ~ bare_0x (codes "-0x1F,") /\ signed_result (- 2 ^ 63) (2 ^ 63 - 1) true 31 = (-31, None).
Proof.
  split; [split; [repeat constructor; unfold nz; discriminate|vm_compute; tauto]|].
  assert (D : forall c, is_digit 16 c <-> 0 <= lookup c < 16) by (intros; apply is_digit_iff).
  split; [|split; [|reflexivity]].
  - constructor. exists [], [45], [48;120], [44], 16.
    split; [reflexivity|]. split; [constructor|]. split; [cbn; intuition lia|]. split; [constructor|].
    split; [discriminate|].
    split; [apply (radix_hex 0 _ 120 [49;70;44]); [|reflexivity|auto]|].
    { exists 120, 49, [70;44]. split; [reflexivity|]. split; [auto|]. apply D. vm_compute. split; [discriminate|reflexivity]. }
    split; [change (codes "1F") with [49;70]; change 31 with (acc 16 [49;70] 0); apply acc_numeral;
      repeat (apply Forall_cons; [apply D; vm_compute; split; [discriminate|reflexivity]|]); apply Forall_nil|].
    split; [cbn [ends]; rewrite D; vm_compute; intuition|reflexivity].
  - intros (ws & sg & neg & x & t & E & Fw & Sg & Hx & Et).
    change (codes "-0x1F,") with [45;48;120;49;70;44] in E.
    destruct ws as [|w ws].
    + destruct Sg; cbn in E; injection E as E; subst; try discriminate.
      cbn [ends] in Et. apply Et. apply D. vm_compute. split; [discriminate|reflexivity].
    + cbn in E. injection E as <- _. apply Forall_cons_iff in Fw. destruct Fw as [W _]. cbn in W. intuition discriminate.
Qed.
