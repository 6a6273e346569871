(* readv and writev: /repo/src/header/sys_uio/mod.rs, /repo/src/header/bits_iovec/mod.rs, and
   the checks of read and write in /repo/src/platform/redox/mod.rs 1050-1053, 1809-1812.
   What the file gives for a read or answers to a write is outside. *)
From Coq Require Import ZArith List Bool.
From Verif Require Import Base Sort_model.
Import ListNotations.
Open Scope Z_scope.

Definition IOV_MAX := 1024.
(* iov_base and iov_len *)
Definition iovec := (Z * Z)%type.
(* to_slice, bits_iovec 17-22 *)
Fixpoint load (m : mem) (a : Z) (n : nat) : res (list Z) :=
  match n with
  | O => Ok []
  | S k => b <- ld m a ;; r <- load m (a + 1) k ;; Ok (b :: r)
  end.
(* 25-32 *)
Fixpoint gather (m : mem) (iovs : list iovec) : res (list Z) :=
  match iovs with
  | [] => Ok []
  | (a, n) :: r => l <- load m a (Z.to_nat n) ;; k <- gather m r ;; Ok (l ++ k)
  end.
(* 34-42: i is the part of vec already used; slicing out of range panics *)
Fixpoint scatter (m : mem) (iovs : list iovec) (vec : list Z) : res mem :=
  match iovs with
  | [] => Ok m
  | (a, n) :: r =>
      if (Z.to_nat n <=? length vec)%nat then m1 <- st_bytes m a (firstn (Z.to_nat n) vec) ;; scatter m1 r (skipn (Z.to_nat n) vec)
      else Panic
  end.

(* the array of iovcnt elements *)
Definition array (iov : nat -> iovec) (cnt : Z) : list iovec := map iov (seq 0 (Z.to_nat cnt)).
Definition in_range (cnt : Z) : bool := (0 <=? cnt) && (cnt <=? IOV_MAX).

(* sys_uio 25-40; rd fd n: the bytes read, at most n, or errno.  The result is the count or errno. *)
Definition readv (rd : Z -> Z -> list Z + Z) (m : mem) (fd : Z) (iov : nat -> iovec) (cnt : Z) : res (mem * (Z + Z)) :=
  if negb (in_range cnt) then Ok (m, inr 22)
  else
    let iovs := array iov cnt in
    vec <- gather m iovs ;;
    match (if fd <? 0 then inr 9 else rd fd (len vec)) with
    | inr e => m1 <- scatter m iovs vec ;; Ok (m1, inr e)
    | inl d => m1 <- scatter m iovs (d ++ skipn (length d) vec) ;; Ok (m1, inl (len d))
    end.
(* 51-61; wr fd data: the count of bytes taken or errno.  write answers EBADFD for a
   negative descriptor. *)
Definition writev (wr : Z -> list Z -> Z + Z) (m : mem) (fd : Z) (iov : nat -> iovec) (cnt : Z) : res (Z + Z) :=
  if negb (in_range cnt) then Ok (inr 22)
  else
    vec <- gather m (array iov cnt) ;;
    Ok (if fd <? 0 then inr 77 else wr fd vec).
