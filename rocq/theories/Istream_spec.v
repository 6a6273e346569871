(* Specification for C40 and C41. *)
From Coq Require Import ZArith List Bool.
From Verif Require Import Base Istream_model.
Import ListNotations.
Open Scope Z_scope.

(* The bytes the stream has yet to deliver: pushed back, buffered, still in the file. *)
Definition unread (s : istream) : list Z :=
  unget s ++ firstn (rsize s - rpos s) (skipn (rpos s) (arr s)) ++ inp s.

(* The two reasons for a short result of a call that went from s to s': a read(2) of the
   call failed and the error indicator is set; or the end-of-file indicator is set, nothing
   is pushed back or buffered, and the file is exhausted or a read(2) of the call reported
   end of file. *)
Definition hit_error (orc : nat -> rres) (s s' : istream) : Prop :=
  Z.land (flags s') F_ERR <> 0 /\ exists j, (reads s <= j < reads s')%nat /\ orc j = RErr.
Definition hit_end (orc : nat -> rres) (s s' : istream) : Prop :=
  Z.land (flags s') F_EOF <> 0 /\ unread s' = inp s' /\
  (inp s' = [] \/ exists j, (reads s <= j < reads s')%nat /\ orc j = RN 0).

(* What calls may do to the bytes to come: c before, c' after. *)
Definition delivers (o : iop) (v : Z) (data c c' : list Z) : Prop :=
  match o with
  | IGetc => (v = -1 /\ c' = c) \/ c = v :: c'
  | IFread size nitems =>
      c = data ++ c' /\ (length data <= size * nitems)%nat /\ v = Z.of_nat (length data / size)
  | IUngetc x => c' = x mod 256 :: c /\ v = x
  | _ => c' = c
  end.
Inductive delivered : list Z -> list iop -> list (Z * list Z) -> list Z -> Prop :=
| del_nil c : delivered c [] [] c
| del_cons c o v d c1 l vs c2 :
    delivers o v d c c1 -> delivered c1 l vs c2 -> delivered c (o :: l) ((v, d) :: vs) c2.

(* setvbuf before anything else, with a real buffer. *)
Definition buffering (pre : list iop) : Prop :=
  forall o, In o pre -> exists a, o = ISetvbuf (Some a) /\ a <> [].
Definition byte_ops (l : list iop) : Prop :=
  forall o, In o l -> match o with IGetc | IFread _ _ | IUngetc _ | IClearerr => True | _ => False end.
(* Any calls but setvbuf, fgets with an int. *)
Definition ok_ops (l : list iop) : Prop :=
  forall o, In o l -> match o with IFgets n => -(2 ^ 31) <= n < 2 ^ 31 | ISetvbuf _ => False | _ => True end.

(* d is cut right after the first c, if it has one. *)
Definition cut_at (c : Z) (d : list Z) : Prop := ~ In c (removelast d).
Definition ends_with (c : Z) (d : list Z) : Prop := exists d0, d = d0 ++ [c].

(* ferror and feof (mod.rs 517-531) *)
Definition err (f : Z) : Prop := Z.land f F_ERR <> 0.
Definition eof (f : Z) : Prop := Z.land f F_EOF <> 0.
(* What a call that went from s to s' does to the indicators: it sets the one for errors
   exactly if a read(2) of the call failed, the one for the end only if one reported end of
   file, and surely if one did at the end of the file; it clears none. *)
Definition tells (orc : nat -> rres) (s s' : istream) : Prop :=
  (err (flags s') <-> err (flags s) \/ exists j, (reads s <= j < reads s')%nat /\ orc j = RErr) /\
  (eof (flags s') -> eof (flags s) \/ exists j n, (reads s <= j < reads s')%nat /\ orc j = RN n /\ (n = 0%nat \/ inp s' = [])) /\
  (eof (flags s) \/ (exists j n, (reads s <= j < reads s')%nat /\ orc j = RN n /\ (n = 0%nat \/ inp s = [])) -> eof (flags s')).
