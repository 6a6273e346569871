(* C82 *)
From Coq Require Import ZArith List Bool Lia.
From Verif Require Import Base Istream_model Ostream_model Ostream_spec Fpos_model Fpos_spec Fpos_proofs.
Import ListNotations.
Open Scope Z_scope.

(* C82 full: a stream behaves as its file with a position, in every mode and for every
   sequence of calls that C allows; fflush and fclose of a stream being read move the
   offset of the descriptor to the position of the stream; fseek leaves the error
   indicator.
   Proved: no system call fails, files not opened to append, getc, fread, ungetc, clearerr, the
   writing calls of C39, fflush and all of fseek and ftell but SEEK_CUR after ungetc.
   Refuted below: append mode, SEEK_CUR after ungetc, fflush when reading, the error indicator. *)
Theorem C82_position_partial k cap rorc worc F b l : rgood rorc -> wgood worc -> b <> Some [] ->
  allowed_run no_cur (AF F 0 [] Idle) l ->
  exists s vs a, f_run k cap rorc worc (f_open F false b) l = Ok (s, vs) /\ arun (AF F 0 [] Idle) l vs a /\
    (ph a <> Writing -> disk s = cont a).
Proof. exact (fun RG WG => fpos_run k cap rorc worc RG WG F b l). Qed.
Print Assumptions C82_position_partial.
(* "abcd": getc, seek back over nothing, overwrite, seek, read on. *)
Definition ex_ops := [FIn IGetc; FTell; FSeek 0 SEEK_CUR; FOut (OpPutc 88); FTell; FSeek 1 SEEK_SET; FIn (IFread 1 9); FOut (OpPutc 89); FOut OpFlush].
Example C82_position_ex :
  rgood (fun _ => RN 2) /\ wgood (fun _ => WOk 1) /\
  allowed_run no_cur (AF [97; 98; 99; 100] 0 [] Idle) ex_ops /\
  exists s, f_run WBuf 1024 (fun _ => RN 2) (fun _ => WOk 1) (f_open [97; 98; 99; 100] false None) ex_ops =
    Ok (s, [(97, []); (1, []); (0, []); (88, []); (2, []); (0, []); (3, [88; 99; 100]); (89, []); (0, [])]) /\
  disk s = [97; 88; 99; 100; 89].
Proof.
  split; [intro j; exists 2%nat; split; [reflexivity|discriminate]|].
  split; [intros j [H|H]; discriminate|]. split.
  - unfold ex_ops. constructor; cbn [allowed ph pushed no_cur]; [discriminate|exact I|]. intros v a' ST. inversion ST; subst; [|cbn in *; lia].
    constructor; cbn [allowed ph pushed no_cur]; [exact I|exact I|]. clear ST. intros v a' ST. inversion ST; subst. clear ST.
    constructor; cbn [allowed ph pushed no_cur]; [exact I|reflexivity|]. intros v a' ST. inversion ST; subst; [|unfold tell in *; cbn in *; lia]. clear ST.
    constructor; cbn [allowed ph pushed no_cur]; [repeat split; discriminate|exact I|]. intros v a' ST. inversion ST; subst. clear ST.
    constructor; cbn [allowed ph pushed no_cur]; [exact I|exact I|]. intros v a' ST. inversion ST; subst. clear ST.
    constructor; cbn [allowed ph pushed no_cur]; [exact I|exact I|]. intros v a' ST. inversion ST; subst; [|cbn in *; lia]. clear ST.
    constructor; cbn [allowed ph pushed no_cur]; [discriminate|exact I|]. intros v a' ST. inversion ST; subst. clear ST.
    match goal with H : put _ _ _ _ |- _ => destruct H as (LF & _) end. cbn in LF.
    assert (X : (length d <? 1 * 9)%nat = true).
    { apply Nat.ltb_lt. match goal with H : length _ = Nat.min _ _ |- _ => rewrite H end. cbn [List.app]. rewrite skipn_length, LF. vm_compute. lia. }
    rewrite X. replace (skipn (length d) []) with (@nil Z) by (symmetry; apply skipn_nil).
    constructor; cbn [allowed ph pushed no_cur]; [repeat split; discriminate|exact I|]. intros v a' ST. inversion ST; subst. clear ST.
    constructor; cbn [allowed ph pushed no_cur]; [exact I|exact I|]. intros v a' ST. constructor.
  - eexists. split; vm_compute; reflexivity.
Qed.

(* A successful seek clears the end-of-file indicator and drops the bytes pushed back, and rewind clears the
   error indicator (as every seek does, refuted below), whatever failed before. *)
Theorem C82_seek_clears k cap rorc worc s d w s' l : f_exec k cap rorc worc s (FSeek d w) = Ok (s', (0, l)) ->
  Z.land (flags (rd s')) F_EOF = 0 /\ Z.land (flags (rd s')) F_ERR = 0 /\ unget (rd s') = [].
Proof. exact (fseek_clears k cap rorc worc s d w s' l). Qed.
Print Assumptions C82_seek_clears.
Example C82_seek_clears_ex :
  exists s1 s2, f_run WBuf 1024 (fun _ => RN 8) (fun _ => WOk 8) (f_open [97] false None) [FIn IGetc; FIn IGetc] = Ok (s1, [(97, []); (-1, [])]) /\
  Z.land (flags (rd s1)) F_EOF <> 0 /\ f_exec WBuf 1024 (fun _ => RN 8) (fun _ => WOk 8) s1 (FSeek 0 SEEK_SET) = Ok (s2, (0, [])).
Proof. eexists _, _. split; [vm_compute; reflexivity|]. split; [vm_compute; discriminate|]. vm_compute. reflexivity. Qed.

(* getc; ungetc; fseek(f, 0, SEEK_CUR) moves the position from 0 to 1. *)
Theorem C82_unget_refuted : exists s, f_run WBuf 1024 (fun _ => RN 8) (fun _ => WOk 8) (f_open [97; 98] false None)
    [FIn IGetc; FIn (IUngetc 97); FTell; FSeek 0 SEEK_CUR; FTell] = Ok (s, [(97, []); (97, []); (0, []); (0, []); (1, [])]).
Proof. eexists. vm_compute. reflexivity. Qed.
Print Assumptions C82_unget_refuted.
(* Append mode on a file of two bytes: after putc the position is 1, after fflush 3. *)
Theorem C82_append_refuted : exists s, f_run WBuf 1024 (fun _ => RN 8) (fun _ => WOk 8) (f_open [97; 98] true None)
    [FOut (OpPutc 99); FTell; FOut OpFlush; FTell] = Ok (s, [(99, []); (1, []); (0, []); (3, [])]) /\ disk s = [97; 98; 99].
Proof. eexists. split; vm_compute; reflexivity. Qed.
Print Assumptions C82_append_refuted.
(* fflush after reading one byte: the position is 1, the offset of the descriptor stays 2. *)
Theorem C82_sync_refuted : exists s, f_run WBuf 1024 (fun _ => RN 8) (fun _ => WOk 8) (f_open [97; 98] false None)
    [FIn IGetc; FOut OpFlush; FTell] = Ok (s, [(97, []); (0, []); (1, [])]) /\ off s = 2%nat.
Proof. eexists. split; vm_compute; reflexivity. Qed.
Print Assumptions C82_sync_refuted.
(* A read fails, fseek(f, 0, SEEK_CUR): the error indicator is gone. *)
Theorem C82_error_refuted : exists s1 s2, f_exec WBuf 1024 (fun _ => RErr) (fun _ => WOk 8) (f_open [97; 98] false None) (FIn IGetc) = Ok (s1, (-1, [])) /\
  Z.land (flags (rd s1)) F_ERR <> 0 /\
  f_exec WBuf 1024 (fun _ => RErr) (fun _ => WOk 8) s1 (FSeek 0 SEEK_CUR) = Ok (s2, (0, [])) /\ Z.land (flags (rd s2)) F_ERR = 0.
Proof. eexists _, _. split; [vm_compute; reflexivity|]. split; [vm_compute; discriminate|]. split; vm_compute; reflexivity. Qed.
Print Assumptions C82_error_refuted.
