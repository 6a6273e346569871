(* posix_getdents, /repo/src/platform/redox/mod.rs 1004-1027 and dent_reclen_offset, 556-567.
   The buffer is the bytes getdents put into it and, after them, what was there.  DirentHeader, of the crate redox_syscall, is
   19 bytes: inode, next_opaque_id, record_len, kind.  The kernel's getdents and lseek are
   parameters. *)
From Verif Require Import Base Getdents_spec.

Fixpoint of_le (l : list Z) : Z := match l with [] => 0 | b :: r => b + 256 * of_le r end.
Definition slice (l : list Z) (a n : nat) : list Z := firstn n (skipn a l).
(* 557-567; record_len - 1 wraps, and nothing is there then *)
Definition dent_reclen_offset (d : list Z) : option (Z * Z) :=
  if (length d <? 19)%nat then None
  else
    let record_len := of_le (slice d 16 2) in
    let next := of_le (slice d 8 8) in
    if record_len =? 0 then None
    else match nth_error d (Z.to_nat (record_len - 1)) with Some 0 => Some (record_len, next) | _ => None end.
(* 1012-1023 *)
Fixpoint scan (fuel : nat) (buf : list Z) (bytes_read processed next : Z) : res (option Z) :=
  match fuel with
  | O => OutOfFuel
  | S f =>
      if processed <? bytes_read then
        match dent_reclen_offset (skipn (Z.to_nat processed) buf) with
        | None => Ok None
        | Some (reclen, opaque) => if reclen =? 0 then Ok None else scan f buf bytes_read (processed + reclen) opaque
        end
      else Ok (Some next)
  end.
(* 1004-1027: the position before, what getdents answers (bytes or an errno), whether lseek
   works; the bytes delivered or the errno, and the position after *)
Definition posix_getdents (pos : Z) (getdents : list Z + Z) (tail : list Z) (lseek : option Z) : res ((list Z + Z) * Z) :=
  match getdents with
  | inr e => Ok (inr e, pos)
  | inl buf =>
      if len buf =? 0 then Ok (inl [], pos)
      else
        n <- scan (S (length buf)) (buf ++ tail) (len buf) 0 pos ;;
        match n with
        | None => Ok (inr 5, pos)
        | Some next =>
            let off := if next <? 9223372036854775808 then next else next - 18446744073709551616 in
            if off <? 0 then Ok (inr 22, pos)
            else match lseek with Some e => Ok (inr e, pos) | None => Ok (inl buf, off) end
        end
  end.
(* calls until nothing is delivered: how many records the kernel gives each time *)
Fixpoint read_all (kernel : Z -> nat -> list Z + Z) (tail : list Z) (counts : list nat) (pos : Z) : res (list Z) :=
  match counts with
  | [] => Ok []
  | c :: r =>
      ' (got, pos) <- posix_getdents pos (kernel pos c) tail None ;;
      match got with
      | inl [] => Ok []
      | inl bytes => rest <- read_all kernel tail r pos ;; Ok (bytes ++ rest)
      | inr _ => Ok []
      end
  end.
