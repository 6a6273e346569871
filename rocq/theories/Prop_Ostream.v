(* C39: buffered output.  [orc] is the behaviour of write(2), call by call; k and cap are
   the buffering mode and size; the calls in l are any sequence of fwrite, fputs, putc,
   puts and fflush.  [out (sdev s)]: the bytes the descriptor has received;
   [wbuf (swr s)]: the bytes still buffered. *)
From Coq Require Import ZArith List Bool.
From Verif Require Import Ostream_model Ostream_spec Ostream_proofs.
Import ListNotations.
Open Scope Z_scope.

(* Every call returns, and what reached the descriptor followed by what is buffered is
   what the calls accepted, in order ([accepts]: a prefix of the argument, all of it on
   success; fwrite: as many items as it reports). *)
Theorem C39_in_order : forall k cap orc l, (forall o, In o l -> valid_op o) ->
  exists s vs acs, o_run k cap orc o_open l = Some (s, vs) /\ all_accept l vs acs /\
    out (sdev s) ++ wbuf (swr s) = concat acs /\ (k = WUnbuf -> wbuf (swr s) = []).
Proof. exact o_ordered. Qed.
Print Assumptions C39_in_order.

Theorem C39_flush : forall k cap orc l s vs s', (forall o, In o l -> valid_op o) ->
  o_run k cap orc o_open l = Some (s, vs) -> o_exec k cap orc s OpFlush = Some (s', 0) ->
  wbuf (swr s') = [] /\ out (sdev s') = out (sdev s) ++ wbuf (swr s).
Proof. exact o_flush. Qed.
Print Assumptions C39_flush.

(* A call during which no write(2) fails (with an error or without progress; earlier ones
   may have) succeeds and accepts all; and no completed line stays in a line buffer. *)
Theorem C39_lines : forall k cap orc l s vs o s' v, (forall o, In o l -> valid_op o) -> valid_op o ->
  o_run k cap orc o_open l = Some (s, vs) -> o_exec k cap orc s o = Some (s', v) ->
  (forall j, (calls (sdev s) <= j < calls (sdev s'))%nat -> ~ bad orc j) ->
  v = success o /\ out (sdev s') ++ wbuf (swr s') = (out (sdev s) ++ wbuf (swr s)) ++ given o /\
  (k = WLine -> given o <> [] \/ o = OpFlush -> ~ In 10 (wbuf (swr s'))).
Proof. exact o_no_failure. Qed.
Print Assumptions C39_lines.

(* Line buffering with a buffer of 4 bytes; the second write(2) takes one byte, the
   third fails, the sixth takes nothing. *)
Example C39_case :
  o_run WLine 4 (fun i => nth i [WOk 9; WOk 1; WErr; WOk 9; WOk 2; WOk 0] (WOk 9)) o_open
    [OpFputs [1; 10; 2]; OpFwrite 2 [[3; 10]; [4; 5]]; OpPutc 6; OpFlush; OpPutc 10; OpFputs [7; 8; 9; 11; 12; 13]; OpPutc 14]
  = Some (Stream (Dev [1; 10; 2; 3; 10; 4; 5; 6; 10; 7; 8; 9; 11; 12; 13] 8) (Writer [14] false) true,
          [0; 2; 6; -1; 10; 0; 14]).
Proof. vm_compute. reflexivity. Qed.
