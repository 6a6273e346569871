(* Property theorems: C103, readv and writev. *)
From Coq Require Import ZArith List Bool Lia.
From Verif Require Import Base Uio_model Uio_spec Uio_proofs.
Import ListNotations.
Open Scope Z_scope.

(* C103.  readv of areas that do not overlap is a read of their total length whose bytes are
   put in the areas in order; nothing else changes, and nothing at all if it fails. *)
Theorem C103_readv : forall rd m fd iov cnt vec, 0 <= cnt <= 1024 -> 0 <= fd -> holds m (places iov cnt) vec -> NoDup (places iov cnt) ->
  (forall d, rd fd (len vec) = inl d -> len d <= len vec) ->
  match rd fd (len (places iov cnt)) with
  | inl d => exists m', readv rd m fd iov cnt = Ok (m', inl (len d)) /\ spread m m' (places iov cnt) d
  | inr e => exists m', readv rd m fd iov cnt = Ok (m', inr e) /\ forall x, m' x = m x
  end.
Proof. exact readv_ok. Qed.
Print Assumptions C103_readv.

(* writev is a write of the bytes of the areas in order *)
Theorem C103_writev : forall wr m fd iov cnt vec, 0 <= cnt <= 1024 -> 0 <= fd -> holds m (places iov cnt) vec -> writev wr m fd iov cnt = Ok (wr fd vec).
Proof. exact writev_ok. Qed.
Print Assumptions C103_writev.

(* a count that is negative or above IOV_MAX is EINVAL, and nothing is touched *)
Theorem C103_count : forall rd wr m fd iov cnt, cnt < 0 \/ 1024 < cnt -> readv rd m fd iov cnt = Ok (m, inr 22) /\ writev wr m fd iov cnt = Ok (inr 22).
Proof. exact iov_range. Qed.
Print Assumptions C103_count.

(* the areas 10-11 and 20-22, and three bytes that are read *)
Example C103_case : let m := fun x => if (10 <=? x) && (x <? 23) then Some 0 else None in
  let iov := fun i => match i with O => (10, 2) | _ => (20, 3) end in
  holds m (places iov 2) [0; 0; 0; 0; 0] /\ NoDup (places iov 2) /\
  exists m', readv (fun _ _ => inl [1; 2; 3]) m 0 iov 2 = Ok (m', inl 3) /\ m' 11 = Some 2 /\ m' 20 = Some 3 /\ m' 21 = Some 0.
Proof.
  cbv zeta. split; [repeat constructor|]. split.
  - change (places _ 2) with [10; 11; 20; 21; 22]. repeat (constructor; [cbn; intuition lia|]). constructor.
  - eexists. split; [cbv -[upd mem Z.leb Z.ltb andb]; reflexivity|]. repeat split; reflexivity.
Qed.

(* writev on a negative descriptor answers EBADFD, 77, where readv answers EBADF *)
Theorem C103_negative_refuted : exists fd, fd < 0 /\ (forall wr m iov, writev wr m fd iov 0 = Ok (inr 77)) /\ forall rd m iov, readv rd m fd iov 0 = Ok (m, inr 9).
Proof. exists (-1). split; [lia|]. split; reflexivity. Qed.
Print Assumptions C103_negative_refuted.
