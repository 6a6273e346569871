(* C120 and C121: wide-character input and output.  Theorems only; the lemmas are in
   Wstdio_proofs.v and Wstdio_proofs2.v.  The partial theorems have the stream not oriented
   wide, which is what these calls themselves leave behind. *)
From Coq Require Import ZArith List Bool Lia.
From Verif Require Import Base Utf8_model Utf8_spec Istream_model Istream_spec Wstdio_model Wstdio_spec Wstdio_proofs Wstdio_proofs2.
From Verif Require Ostream_model.
Import ListNotations.
Open Scope Z_scope.

(* Any calls on the stream return. *)
Theorem C120_total : forall orc F f b l, b <> Some [] -> Forall is_byte F -> exists w vs, w_run orc (w_open F f b) l = Ok (w, vs).
Proof. intros orc F f b l N B. destruct (w_run_good orc l _ (w_open_good F f b N B)) as (w & vs & E & _). eauto. Qed.
Print Assumptions C120_total.

(* After any calls: fgetwc delivers the next character, and passes over exactly its bytes. *)
Theorem C120_fgetwc_partial : forall orc F f b l w vs c, b <> Some [] -> Forall is_byte F -> w_run orc (w_open F f b) l = Ok (w, vs) -> ori w <= 0 -> healthy orc w ->
  starts_with_char (unread (ist w)) c ->
  exists w', fgetwc orc w = Ok (w', c, None) /\ unread (ist w) = utf8 c ++ unread (ist w') /\ flags (ist w') = flags (ist w).
Proof. exact in_fgetwc. Qed.
Print Assumptions C120_fgetwc_partial.

(* WEOF: a read(2) failed, the end is reached, or the bytes are no character. *)
Theorem C120_weof_partial : forall orc F f b l w vs w' e, b <> Some [] -> Forall is_byte F -> w_run orc (w_open F f b) l = Ok (w, vs) -> ori w <= 0 ->
  fgetwc orc w = Ok (w', WEOF, e) ->
  hit_error orc (ist w) (ist w') \/ hit_end orc (ist w) (ist w') \/ (e = Some EILSEQ /\ err (flags (ist w')) /\ no_char (unread (ist w))).
Proof. exact in_weof. Qed.
Print Assumptions C120_weof_partial.

(* fgetws takes characters up to a newline, the end, or n - 1 of them. *)
Theorem C120_fgetws_partial : forall orc F f b l w vs cs n, b <> Some [] -> Forall is_byte F -> w_run orc (w_open F f b) l = Ok (w, vs) -> ori w <= 0 -> healthy orc w ->
  ~ err (flags (ist w)) -> unread (ist w) = utf8_str cs -> Forall scalar cs -> 0 < n < 2 ^ 31 ->
  exists cs1 cs2 w' ok, cs = cs1 ++ cs2 /\ fgetws orc w n = Ok (w', cs1 ++ [0], ok) /\ (ok = true <-> cs1 <> []) /\ unread (ist w') = utf8_str cs2 /\
    len cs1 <= n - 1 /\ cut_at 10 cs1 /\ (len cs1 = n - 1 \/ ends_with 10 cs1 \/ cs2 = []).
Proof. exact in_fgetws. Qed.
Print Assumptions C120_fgetws_partial.

(* A character pushed back is the next one read, without a read(2), and the rest follows. *)
Theorem C120_ungetwc_partial : forall orc F f b l w vs c, b <> Some [] -> Forall is_byte F -> w_run orc (w_open F f b) l = Ok (w, vs) -> ori w <= 0 -> scalar c ->
  exists w1 w2, ungetwc orc w c = Ok (w1, c) /\ unread (ist w1) = utf8 c ++ unread (ist w) /\
    fgetwc orc w1 = Ok (w2, c, None) /\ unread (ist w2) = unread (ist w) /\ reads (ist w2) = reads (ist w) /\ flags (ist w2) = flags (ist w).
Proof. exact in_ungetwc. Qed.
Print Assumptions C120_ungetwc_partial.
Theorem C120_ungetwc_illegal : forall orc w c, c = WEOF \/ ~ scalar (to_i32 c) -> ungetwc orc w c = Ok (w, WEOF).
Proof. exact ungetwc_bad. Qed.
Print Assumptions C120_ungetwc_illegal.

(* A stream oriented wide with fwide reports the end of a file that has an A. *)
Theorem C120_orientation_refuted : exists w,
  w_run (fun _ => RN 5) (w_open [65] 0 None) [WFwide 1; WGetwc; WUngetwc 66; WGetwc] = Ok (w, [(1, []); (WEOF, []); (66, []); (WEOF, [])]) /\
  unread (ist w) = [65] /\ flags (ist w) = 0 /\ reads (ist w) = 0%nat.
Proof. eexists. split; [vm_compute; reflexivity|]. vm_compute. auto. Qed.
Print Assumptions C120_orientation_refuted.

(* Bytes that are no character are read as the character 0, and the error indicator stays
   clear; a character cut off by the end is taken for the end. *)
Theorem C120_malformed_refuted :
  (exists w e, fgetwc (fun _ => RN 5) (w_open [226; 40; 161] 0 None) = Ok (w, 0, e) /\ no_char [226; 40; 161] /\ ~ err (flags (ist w))) /\
  (exists w, fgetwc (fun _ => RN 5) (w_open [226; 130] 0 None) = Ok (w, WEOF, None) /\ no_char [226; 130] /\ ~ err (flags (ist w)) /\ unread (ist w) = []).
Proof.
  assert (A : forall c post x l, scalar c -> utf8 c ++ post = 226 :: 40 :: x :: l -> False).
  { intros c post x l Hc E. unfold utf8 in E. repeat (match type of E with context [?a <? ?b] => destruct (Z.ltb_spec a b) end);
      cbn [app] in E; injection E; intros; try lia. }
  split.
  - eexists _, _. split; [vm_compute; reflexivity|]. split; [|vm_compute; auto]. intros c (Hc & post & E). symmetry in E. eapply A; eassumption.
  - eexists. split; [vm_compute; reflexivity|]. split; [|vm_compute; auto]. intros c (Hc & post & E). unfold scalar in Hc. unfold utf8 in E.
    repeat (match type of E with context [?a <? ?b] => destruct (Z.ltb_spec a b) end); cbn [app] in E; injection E; intros; try lia; discriminate.
Qed.
Print Assumptions C120_malformed_refuted.

(* Once the error indicator is set, fgetws takes a line and returns NULL. *)
Theorem C120_fgetws_sticky_refuted : exists w,
  w_run (fun _ => RN 9) (w_open [255; 65; 10; 66] 0 None) [WGetwc; WGetws 9] = Ok (w, [(WEOF, []); (0, [65; 10; 0])]) /\ unread (ist w) = [66].
Proof. eexists. split; [vm_compute; reflexivity|]. reflexivity. Qed.
Print Assumptions C120_fgetws_sticky_refuted.

(* A 3-byte buffer and short reads: characters straddle them. *)
Example C120_case : exists w,
  w_run (fun i => nth i [RN 9; RN 1] (RN 9)) (w_open (utf8_str [233; 8364; 128512; 10; 65]) 0 (Some [0; 0; 0]))
    [WGetwc; WGetwc; WUngetwc 128513; WGetws 3; WGetws 3; WGetws 2; WGetws 2] =
  Ok (w, [(233, []); (8364, []); (128513, []); (1, [128513; 128512; 0]); (1, [10; 0]); (1, [65; 0]); (0, [0])]) /\ ori w = -1 /\
  healthy (fun i => nth i [RN 9; RN 1] (RN 9)) (w_open [] 0 None) /\ starts_with_char (utf8_str [233; 8364]) 233 /\ ~ scalar (to_i32 55296) /\
  fgetwc (fun _ => RN 9) (w_open [128; 65] 0 None) = Ok (WIS (-1) (IS [] 1 (Some ([128; 65] ++ repeat 0 1022)) 1 2 [] 32), WEOF, Some EILSEQ).
Proof.
  eexists. split; [vm_compute; reflexivity|]. split; [reflexivity|]. split; [|split; [|split; [change (to_i32 55296) with 55296; unfold scalar; lia|vm_compute; reflexivity]]].
  - intros j _. destruct j as [|[|j]]; cbn; [split; congruence..|]. destruct j; split; congruence.
  - split; [unfold scalar; lia|]. exists (utf8 8364). reflexivity.
Qed.

(** ** C121 *)
Theorem C121_fputwc_partial : forall k cap orc l w vs c, wchar_args l -> wo_run k cap orc wo_open l = Ok (w, vs) -> oori w <= 0 -> fine orc w -> scalar c ->
  exists w', fputwc k cap orc w c = Ok (w', c, None) /\ accepted w' = accepted w ++ utf8 c.
Proof. exact out_fputwc. Qed.
Print Assumptions C121_fputwc_partial.
Theorem C121_fputws_partial : forall k cap orc l w vs m ws cs fuel, wchar_args l -> wo_run k cap orc wo_open l = Ok (w, vs) -> oori w <= 0 -> fine orc w ->
  wide cs -> bytes_at m ws (cs ++ [0]) -> (length cs < fuel)%nat ->
  exists w', fputws fuel k cap orc w m ws = Ok (w', 0) /\ accepted w' = accepted w ++ utf8_str cs.
Proof. exact out_fputws. Qed.
Print Assumptions C121_fputws_partial.

(* A wide string written to a file and flushed is read back by fgetwc. *)
Theorem C121_round_trip_partial : forall k cap orc m ws cs fuel rorc f b, fine orc wo_open -> wide cs -> bytes_at m ws (cs ++ [0]) -> (length cs < fuel)%nat ->
  (forall j, rorc j <> RErr /\ rorc j <> RN 0) -> b <> Some [] -> ~ err f ->
  exists w w' F r, fputws fuel k cap orc wo_open m ws = Ok (w, 0) /\ wo_exec k cap orc w WoFlush = Ok (w', 0) /\ Ostream_model.out (Ostream_model.sdev (ost w')) = F /\
    w_run rorc (w_open F f b) (repeat WGetwc (length cs) ++ [WGetwc]) = Ok (r, map (fun c => (c, [])) cs ++ [(WEOF, [])]).
Proof. exact out_in. Qed.
Print Assumptions C121_round_trip_partial.

(* On a stream oriented wide, fputwc writes nothing and reports success. *)
Theorem C121_orientation_refuted : exists w,
  wo_run Ostream_model.WBuf 16 (fun _ => Ostream_model.WOk 9) wo_open [WoFwide 1; WoPutwc 65; WoFlush] = Ok (w, [1; 65; 0]) /\ accepted w = [].
Proof. eexists. split; vm_compute; reflexivity. Qed.
Print Assumptions C121_orientation_refuted.
(* A value that is no character: four NULs are written, and the value is returned. *)
Theorem C121_illegal_refuted : exists w,
  wo_run Ostream_model.WBuf 16 (fun _ => Ostream_model.WOk 9) wo_open [WoPutwc 55296; WoFlush] = Ok (w, [55296; 0]) /\ ~ scalar 55296 /\ accepted w = [0; 0; 0; 0].
Proof. eexists. split; [vm_compute; reflexivity|]. split; [unfold scalar; lia|vm_compute; reflexivity]. Qed.
Print Assumptions C121_illegal_refuted.
(* A failing write(2) is not reported, and leaves half a character. *)
Theorem C121_write_error_refuted : exists w,
  wo_run Ostream_model.WUnbuf 16 (fun i => if (i =? 0)%nat then Ostream_model.WErr else Ostream_model.WOk 9) wo_open [WoPutwc 233] = Ok (w, [233]) /\
  accepted w = [169] /\ utf8 233 = [195; 169].
Proof. eexists. split; [vm_compute; reflexivity|]. split; vm_compute; reflexivity. Qed.
Print Assumptions C121_write_error_refuted.

(* Line buffering with a buffer of 4 bytes; write(2) takes two bytes at a time. *)
Example C121_case : exists w,
  fputws 9 Ostream_model.WLine 4 (fun _ => Ostream_model.WOk 2) wo_open (mem_of 7 [233; 10; 8364; 128512; 0]) 7 = Ok (w, 0) /\
  accepted w = [195; 169; 10; 226; 130; 172; 240; 159; 152; 128] /\ fine (fun _ => Ostream_model.WOk 2) wo_open /\ wide [233; 10; 8364; 128512].
Proof.
  eexists. split; [vm_compute; reflexivity|]. split; [vm_compute; reflexivity|]. split.
  - intros j _ [H|H]; discriminate.
  - repeat (apply Forall_cons; [unfold scalar; lia|]). apply Forall_nil.
Qed.

(* fwide orients an unoriented stream by the sign of its argument, asks with 0, never
   changes a given orientation, and tells the orientation. *)
Theorem C120_fwide : forall orc w mode, exists o,
  w_exec orc w (WFwide mode) = Ok (WIS o (ist w), (o, [])) /\
  (ori w <> 0 -> o = ori w) /\
  (ori w = 0 -> (0 < mode -> 0 < o) /\ (mode < 0 -> o < 0) /\ (mode = 0 -> o = 0)).
Proof. exact fwide_ok. Qed.
Print Assumptions C120_fwide.
Example C120_fwide_case : set_orientation 0 0 = 0 /\ set_orientation 0 7 = 1 /\ set_orientation (-1) 7 = -1.
Proof. auto. Qed.
