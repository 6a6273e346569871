(* C40, C41: buffered input.  [orc] is the behaviour of read(2), call by call (errors,
   any chunking); F the contents of the file; f the flags of the stream after opening.
   [unread s]: the bytes still to come. *)
From Coq Require Import ZArith List Bool.
From Verif Require Import Base Istream_model Istream_spec Istream_proofs Istream_flags.
Import ListNotations.
Open Scope Z_scope.

(* Missing from C40: setvbuf after the first read, and unbuffered streams; both are
   refuted below. *)

(* Every call returns; getc and fread return the bytes of F in order, each once, except
   that pushed-back bytes come first, last in first out. *)
Theorem C40_once_partial : forall orc F f pre l, buffering pre -> byte_ops l ->
  exists s vs ps, i_run orc (i_open F f) (pre ++ l) = Ok (s, ps ++ vs) /\ delivered F l vs (unread s).
Proof. exact in_once. Qed.
Print Assumptions C40_once_partial.

(* After any calls: getc reports EOF, and fread stops short, only when a read(2) of that
   call failed or reported end of file, or the file is exhausted. *)
Theorem C40_eof_partial : forall orc F f pre l s vs s', buffering pre -> ok_ops l -> i_run orc (i_open F f) (pre ++ l) = Ok (s, vs) ->
  (forall b, In b (unread s) -> 0 <= b) ->
  (forall d, i_exec orc s IGetc = Ok (s', (-1, d)) -> hit_error orc s s' \/ hit_end orc s s') /\
  (forall size n v d, i_exec orc s (IFread size n) = Ok (s', (v, d)) -> (length d < size * n)%nat -> hit_error orc s s' \/ hit_end orc s s').
Proof. exact in_eof. Qed.
Print Assumptions C40_eof_partial.

(* An unbuffered stream reports end of file at once. *)
Theorem C40_unbuffered_refuted : exists s,
  i_run (fun _ => RN 5) (i_open [65; 66] 0) [ISetvbuf None; IGetc] = Ok (s, [(0, []); (-1, [])]) /\ inp s = [65; 66].
Proof. eexists. vm_compute. split; reflexivity. Qed.
Print Assumptions C40_unbuffered_refuted.

(* setvbuf after reading makes the stream deliver the new buffer's bytes, or panic. *)
Theorem C40_setvbuf_refuted :
  (exists s, i_run (fun _ => RN 5) (i_open [65; 66; 67] 0) [IGetc; ISetvbuf (Some [0; 0; 0; 0]); IGetc; IGetc; IGetc] =
    Ok (s, [(65, []); (0, []); (0, []); (0, []); (-1, [])])) /\
  i_run (fun _ => RN 5) (i_open [65; 66; 67] 0) [IGetc; ISetvbuf (Some [0; 0]); IGetc] = Panic.
Proof. split; [eexists|]; vm_compute; reflexivity. Qed.
Print Assumptions C40_setvbuf_refuted.

(* ungetc(EOF) pushes back the byte 255. *)
Theorem C40_unget_eof_refuted : exists s,
  i_run (fun _ => RN 5) (i_open [65] 0) [IUngetc (-1); IGetc; IGetc] = Ok (s, [(-1, []); (255, []); (65, [])]).
Proof. eexists. vm_compute. reflexivity. Qed.
Print Assumptions C40_unget_eof_refuted.

(* A 3-byte buffer; the second read(2) gives one byte, the third fails. *)
Example C40_case : exists s,
  i_run (fun i => nth i [RN 9; RN 1; RErr] (RN 9)) (i_open [1; 2; 3; 4; 5; 6; 7] 0)
    [ISetvbuf (Some [0; 0; 0]); IGetc; IUngetc 300; IUngetc 9; IFread 2 3; IGetc; IFread 2 3; IGetc] =
  Ok (s, [(0, []); (1, []); (300, []); (9, []); (2, [9; 44; 2; 3; 4]); (5, []); (1, [6; 7]); (-1, [])]) /\
  buffering [ISetvbuf (Some [0; 0; 0])] /\ flags s = 48.
Proof.
  eexists. split; [vm_compute; reflexivity|]. split; [|reflexivity].
  intros o [<-|[]]. eexists. split; [reflexivity|discriminate].
Qed.

(* Missing from C41: streams with pushed-back bytes (except [C41_fgets_fits]); refuted below. *)

(* fgets(buf, n): d is what it consumed, got what it stored at buf. *)
Theorem C41_fgets_partial : forall orc F f pre l s vs n, buffering pre -> ok_ops l ->
  i_run orc (i_open F f) (pre ++ l) = Ok (s, vs) -> unget s = [] ->
  0 < n < 2 ^ 31 -> exists s' v got d, i_exec orc s (IFgets n) = Ok (s', (v, got)) /\
    unread s = d ++ unread s' /\ Z.of_nat (length got) <= n /\ cut_at 10 d /\
    (v = 1 /\ got = d ++ [0] /\ d <> [] /\ (Z.of_nat (length d) = n - 1 \/ ends_with 10 d \/ hit_end orc s s') \/
     v = 0 /\ got = [0] /\ d = [] /\ (n = 1 \/ hit_end orc s s') \/
     v = 0 /\ (got = d \/ got = d ++ [0]) /\ hit_error orc s s').
Proof. exact in_fgets. Qed.
Print Assumptions C41_fgets_partial.

(* With or without pushed-back bytes: never more than n bytes stored. *)
Theorem C41_fgets_fits : forall orc F f pre l s vs n, buffering pre -> ok_ops l ->
  i_run orc (i_open F f) (pre ++ l) = Ok (s, vs) ->
  0 <= n < 2 ^ 31 -> exists s' v got d, i_exec orc s (IFgets n) = Ok (s', (v, got)) /\
    unread s = d ++ unread s' /\ Z.of_nat (length got) <= n /\ (got = d \/ got = d ++ [0]) /\ (v = 1 -> got = d ++ [0]).
Proof. exact in_fgets_any. Qed.
Print Assumptions C41_fgets_fits.

Theorem C41_getdelim_partial : forall orc F f pre l s vs delim, buffering pre -> ok_ops l ->
  i_run orc (i_open F f) (pre ++ l) = Ok (s, vs) -> unget s = [] ->
  Z.land (flags s) F_EOF = 0 -> Z.land (flags s) F_ERR = 0 -> 0 <= delim < 256 ->
  exists s' v got, i_exec orc s (IGetdelim delim) = Ok (s', (v, got)) /\
    ((exists d, unread s = d ++ unread s' /\ got = d ++ [0] /\ v = Z.of_nat (length d) /\ d <> [] /\ cut_at delim d /\
        (ends_with delim d \/ hit_end orc s s')) \/
     v = -1 /\ unread s' = unread s /\ hit_end orc s s' \/
     v = -1 /\ hit_error orc s s').
Proof. exact in_getdelim. Qed.
Print Assumptions C41_getdelim_partial.

(* A pushed-back newline does not end fgets' line; a pushed-back byte at end of file is
   consumed though the result is NULL; getdelim passes over pushed-back bytes. *)
Theorem C41_pushback_refuted :
  (exists s, i_run (fun _ => RN 5) (i_open [65; 66] 0) [IUngetc 10; IFgets 10] = Ok (s, [(10, []); (1, [10; 65; 66; 0])])) /\
  (exists s, i_run (fun _ => RN 5) (i_open [] 0) [IUngetc 67; IFgets 10] = Ok (s, [(67, []); (0, [67; 0])]) /\ unread s = []) /\
  (exists s, i_run (fun _ => RN 5) (i_open [65; 10; 66] 0) [IUngetc 67; IGetdelim 10; IGetc] =
    Ok (s, [(67, []); (2, [65; 10; 0]); (67, [])])).
Proof. split; [|split]; eexists; vm_compute; repeat split; reflexivity. Qed.
Print Assumptions C41_pushback_refuted.

(* Lines that straddle the 3-byte buffer and short reads. *)
Example C41_case : exists s,
  i_run (fun i => nth i [RN 9; RN 1] (RN 9)) (i_open [1; 10; 2; 3; 4; 5; 10; 6; 10; 7] 1)
    [ISetvbuf (Some [0; 0; 0]); IFgets 9; IFgets 3; IFgets 9; IGetdelim 10; IGetdelim 10; IGetdelim 10] =
  Ok (s, [(0, []); (1, [1; 10; 0]); (1, [2; 3; 0]); (1, [4; 5; 10; 0]); (2, [6; 10; 0]); (1, [7; 0]); (-1, [])]) /\
  buffering [ISetvbuf (Some [0; 0; 0])] /\ unget s = [].
Proof.
  eexists. split; [vm_compute; reflexivity|]. split; [|reflexivity].
  intros o [<-|[]]. eexists. split; [reflexivity|discriminate].
Qed.

(* C74: the indicators.  Missing: setvbuf after the first read, and unbuffered streams. *)
Theorem C74_indicators_partial : forall orc F f pre l s vs o s' v, buffering pre -> ok_ops l ->
  i_run orc (i_open F f) (pre ++ l) = Ok (s, vs) ->
  match o with IClearerr | ISetvbuf _ => False | _ => True end -> i_exec orc s o = Ok (s', v) -> tells orc s s'.
Proof. exact in_tells. Qed.
Print Assumptions C74_indicators_partial.
Theorem C74_clearerr : forall orc s s' v, i_exec orc s IClearerr = Ok (s', v) ->
  Z.land (flags s') F_ERR = 0 /\ Z.land (flags s') F_EOF = 0 /\ unread s' = unread s.
Proof. exact in_clearerr. Qed.
Print Assumptions C74_clearerr.
(* ungetc leaves the end-of-file indicator set though there is a byte to read. *)
Theorem C74_ungetc_refuted : exists s,
  i_run (fun _ => RN 5) (i_open [] 0) [IGetc; IUngetc 65] = Ok (s, [(-1, []); (65, [])]) /\ unread s = [65] /\ eof (flags s).
Proof. eexists. split; [vm_compute; reflexivity|]. split; [reflexivity|]. vm_compute. discriminate. Qed.
Print Assumptions C74_ungetc_refuted.
(* The third read(2) fails, the fourth is the end. *)
Example C74_case : exists s1 s2 s3,
  i_run (fun i => nth i [RN 9; RN 1; RErr] (RN 9)) (i_open [1; 2; 3; 4] 0) [ISetvbuf (Some [0; 0; 0]); IFread 1 9] = Ok (s1, [(0, []); (4, [1; 2; 3; 4])]) /\
  (err (flags s1) /\ ~ eof (flags s1)) /\
  i_exec (fun i => nth i [RN 9; RN 1; RErr] (RN 9)) s1 IClearerr = Ok (s2, (0, [])) /\ (~ err (flags s2) /\ ~ eof (flags s2)) /\
  i_exec (fun i => nth i [RN 9; RN 1; RErr] (RN 9)) s2 IGetc = Ok (s3, (-1, [])) /\ (~ err (flags s3) /\ eof (flags s3)).
Proof.
  eexists _, _, _. split; [vm_compute; reflexivity|]. split; [vm_compute; split; [discriminate|auto]|]. split; [vm_compute; reflexivity|]. split; [vm_compute; split; auto|].
  split; [vm_compute; reflexivity|]. vm_compute. split; [auto|discriminate].
Qed.
