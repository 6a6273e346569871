(* C42, C43: the printf family.  [p_printf] is the printing of a format on memory [m] (its
   result lists the slices written); [format_of l last] and [args_of l] spell out a format
   and its arguments, [prints_all] is the text the C standard prescribes for them. *)
From Coq Require Import String ZArith List Bool.
From Verif Require Import Base Numeral Ctype_spec Printf_model Printf_spec Printf_proofs.
Import ListNotations.
Open Scope string_scope.
Open Scope list_scope.
Open Scope Z_scope.

(* Missing from C42: buffers of one byte and empty outputs (refuted below). *)

(* Whatever the format printed, in whatever slices: with 1 < n the buffer gets the first
   n-1 bytes and a NUL and nothing else changes; the result is the full length. *)
Theorem C42_snprintf_partial : forall fuel m wm em fmt args m1 out s n,
  p_printf fuel m wm em fmt args = Ok (m1, Some (out, true)) -> len (concat out) < 2 ^ 31 ->
  concat out <> [] -> 1 < n -> mapped m1 s n ->
  exists m', vsnprintf fuel m wm em s n fmt args = Ok (m', len (concat out)) /\
    stored m1 m' s (firstn (Z.to_nat (n - 1)) (concat out) ++ [0]).
Proof. intros. eapply snprintf_spec; eauto. Qed.
Print Assumptions C42_snprintf_partial.

(* With n <= 1 nothing is stored and the result is the full length. *)
Theorem C42_snprintf_zero : forall fuel m wm em fmt args m1 out s n,
  p_printf fuel m wm em fmt args = Ok (m1, Some (out, true)) -> len (concat out) < 2 ^ 31 -> n <= 1 ->
  vsnprintf fuel m wm em s n fmt args = Ok (m1, len (concat out)).
Proof. intros. eapply snprintf_spec; eauto. Qed.
Print Assumptions C42_snprintf_zero.

(* sprintf stores the whole output and a NUL. *)
Theorem C42_sprintf_partial : forall fuel m wm em fmt args m1 out s,
  p_printf fuel m wm em fmt args = Ok (m1, Some (out, true)) -> len (concat out) < 2 ^ 31 ->
  concat out <> [] -> mapped m1 s (len (concat out) + 1) ->
  exists m', vsprintf fuel m wm em s fmt args = Ok (m', len (concat out)) /\ stored m1 m' s (concat out ++ [0]).
Proof. intros. eapply snprintf_spec; eauto. Qed.
Print Assumptions C42_sprintf_partial.

Definition buf : mem := mem_of 1000 (repeat 35 16).
Definition look (r : res (mem * Z)) : option (list (option Z) * Z) :=
  match r with Ok (m, v) => Some (map m [1000; 1001; 1002; 1003; 1004], v) | _ => None end.

(* snprintf(buf, 1, "abc") leaves buf[0] as it was; so does snprintf(buf, 16, "%s", ""),
   and sprintf(buf, ""). *)
Theorem C42_no_nul_refuted :
  (exists m, vsnprintf 9 buf buf [] 1000 1 (codes "abc") [] = Ok (m, 3) /\ m 1000 = Some 35) /\
  (exists m, vsnprintf 9 (upd buf 2000 0) buf [] 1000 16 (codes "%s") [2000] = Ok (m, 0) /\ m 1000 = Some 35) /\
  (exists m, vsprintf 9 buf buf [] 1000 (codes "") [] = Ok (m, 0) /\ m 1000 = Some 35).
Proof. split; [|split]; eexists; vm_compute; split; reflexivity. Qed.
Print Assumptions C42_no_nul_refuted.

Example C42_case :
  look (vsnprintf 9 buf buf [] 1000 4 (codes "x=%d;") [1234]) = Some ([Some 120; Some 61; Some 49; Some 0; Some 35], 7) /\
  (exists out, p_printf 9 buf buf [] (codes "x=%d;") [1234] = Ok (buf, Some (out, true)) /\ (2 < length out)%nat /\ concat out = codes "x=1234;").
Proof. split; [vm_compute; reflexivity|]. eexists. vm_compute. split; [reflexivity|]. split; [|reflexivity]. repeat constructor. Qed.

(* Missing from C43: the combinations excluded by [no_quirk] (refuted below), positional
   arguments, floats, %p, %n, %m and wide characters and strings. *)

(* For every format made of text, %% and the conversions d i u o x X b B s c with any
   flags, width, precision, '*' and length modifier outside [no_quirk]: printing succeeds,
   memory is unchanged, and the output is the one the standard prescribes. *)
Theorem C43_printf_partial : forall m wm em l last fuel,
  Forall (fun x => good_text (fst x) /\ good_dir (snd x)) l -> good_text last ->
  Forall (fun x => no_quirk (snd x)) l -> strings_at m l (Z.min (2 ^ 64) (Z.of_nat fuel)) ->
  exists out, p_printf fuel m wm em (format_of l last) (args_of l) = Ok (m, Some (out, true)) /\
    forall o, prints_all m last l o <-> o = concat out.
Proof. exact printf_denotes. Qed.
Print Assumptions C43_printf_partial.

Definition text (m : mem) (fmt : string) (args : list Z) : option (list Z) :=
  match p_printf 20 m m [] (codes fmt) args with Ok (_, Some (o, true)) => Some (concat o) | _ => None end.
Definition says (fmt : string) (args : list Z) (o : string) : Prop := text buf fmt args = Some (codes o).

(* Wrong outputs.  The standard prescribes, in turn: "42   ", "00042", "+42",
   "-00042", "+0042", "    +", "0x002a", "010" and "0". *)
Theorem C43_quirks_refuted :
  says "%-05d" [42] "00042" /\ says "%0*.*d" [5; -1; 42] "   42" /\ says "%+ d" [42] " 42" /\
  says "%.5d" [-42] "-0042" /\ says "%+05d" [42] "+00042" /\ says "%+5.0d" [0] "     +" /\ says "%#06x" [42] "0x00002a" /\
  says "%#.2o" [8] "10" /\ says "%#.0o" [0] "".
Proof. repeat split; vm_compute; reflexivity. Qed.
Print Assumptions C43_quirks_refuted.

(* printf("%0*d", -5, 42) prints 2^64 - 5 characters instead of "42   ". *)
Theorem C43_zero_width_refuted : exists out, p_printf 9 buf buf [] (codes "%0*d") [-5; 42] = Ok (buf, Some (out, true)) /\
  len (concat out) = 2 ^ 64 - 5.
Proof.
  exists (conv_signed false false false None (2 ^ 64 - 5) 0 42). split; [cbv -[conv_signed buf]; reflexivity|].
  unfold conv_signed. rewrite !concat_app, !concat_padding, !len_app, len_rep. reflexivity.
Qed.
Print Assumptions C43_zero_width_refuted.

(* "%.d" fails (the standard: precision 0); "%.3s" reads a fourth byte; "%9s" of a null
   pointer and "%9p" misplace the padding; "%.3ls" prints two of three characters. *)
Theorem C43_others_refuted :
  (exists m, p_printf 9 buf buf [] (codes "%.d") [42] = Ok (m, None)) /\
  p_printf 9 (mem_of 2000 [97; 98; 99]) buf [] (codes "%.3s") [2000] = Fault /\
  says "%9s" [0] "(null)" /\ says "%9p" [4096] "     0x1000" /\
  (exists m out, p_printf 9 buf (mem_of 3000 [97; 98; 99; 0]) [] (codes "%.3ls") [3000] = Ok (m, Some (out, true)) /\ concat out = codes "ab").
Proof.
  split; [eexists; vm_compute; reflexivity|]. split; [vm_compute; reflexivity|]. split; [vm_compute; reflexivity|].
  split; [vm_compute; reflexivity|]. eexists. eexists. vm_compute. split; reflexivity.
Qed.
Print Assumptions C43_others_refuted.

(* A format with six conversions that meets the hypotheses. *)
Definition demo : list (list Z * dir) :=
  [ (codes "n=", D [45] (Some (FNum [6])) (Some (FNum [1])) IInt 100 (-7));
    (codes "|", D [35] (Some (FStar (-7))) None IByte 120 (256 + 190));
    (codes "|", D [48] (Some (FNum [6])) None ILong 100 (-1234));
    (codes "|", D [] (Some (FNum [8])) (Some (FStar 2)) IInt 115 1000);
    ([], D [] None None IInt 37 0); ([], D [] None None IInt 99 (- 156)) ].
Definition abc : mem := mem_of 1000 (codes "abc" ++ [0]).
Example C43_case :
  format_of demo (codes ".") = codes "n=%-6.1d|%#*hhx|%06ld|%8.*s%%%c." /\ args_of demo = [-7; -7; 446; -1234; 2; 1000; -156] /\
  (exists out, p_printf 20 abc abc [] (format_of demo (codes ".")) (args_of demo) = Ok (abc, Some (out, true)) /\
    concat out = codes "n=-7    |0xbe   |-01234|      ab%d.") /\
  Forall (fun x => good_text (fst x) /\ good_dir (snd x)) demo /\ Forall (fun x => no_quirk (snd x)) demo /\ strings_at abc demo 20.
Proof.
  split; [vm_compute; reflexivity|]. split; [vm_compute; reflexivity|].
  split; [eexists; split; [vm_compute; reflexivity|vm_compute; reflexivity]|].
  assert (GT : forall l, forallb (fun c => negb (c =? 37)) l = true -> good_text l).
  { intros l H I. rewrite forallb_forall in H. specialize (H 37 I). discriminate. }
  assert (IN : forall c, In c [100; 105; 117; 111; 120; 88; 98; 66] -> int_conv c) by (intros; assumption).
  split; [|split].
  - unfold demo. repeat (apply Forall_cons; [cbn [fst snd]; split; [apply GT; reflexivity|]|]); [..|constructor].
    all: unfold good_dir; cbn [d_conv d_flags d_width d_prec d_size].
    all: split; [|split; [repeat constructor; cbn; tauto|split; intros f E; try discriminate; injection E as <-; cbn; unfold is_num, is_int32; try (split; [|intros ds X; try discriminate; injection X as <-; cbn; lia]);
         repeat split; try discriminate; try (repeat constructor; lia); cbn; lia]].
    all: try (left; unfold int_conv; cbn; tauto).
    + right. left. split; [left; reflexivity|]. cbn. repeat split; lia.
    + right. right. reflexivity.
    + right. left. split; [right; reflexivity|]. cbn. repeat split; lia.
  - unfold demo. repeat (apply Forall_cons; [cbn [fst snd]; intro I; split; [intros H H0; vm_compute in H; try discriminate H; reflexivity|
      split; [intros H H0; try (exfalso; apply H0; reflexivity); vm_compute in H; discriminate H|]]; intros v ds C N; split; intro H; try (vm_compute in H; discriminate H)|]); [..|constructor].
    all: try (intro H0; vm_compute in H0; discriminate H0).
    + split; [reflexivity|]. split; [|split; [intros ? X; discriminate X|intros ? X; discriminate X]].
      intros _ p E. vm_compute in E. injection E as <-. destruct N as (_ & _ & N & _). destruct ds; [congruence|]. rewrite len_cons. pose proof (len_nonneg ds). lia.
    + intros _ _. split; [reflexivity|]. split; intro X; discriminate X.
    + split; [reflexivity|]. split; [intros _ p E; discriminate E|]. split; reflexivity.
  - intros t d H E. unfold demo in H. cbn [In] in H.
    repeat (destruct H as [H|H]; [injection H as <- <-; try discriminate E|]); [|destruct H].
    exists (codes "abc"). split; [|vm_compute; reflexivity]. split; [repeat constructor; lia|].
    apply mem_of_bytes.
Qed.
