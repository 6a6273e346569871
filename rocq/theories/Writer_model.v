(** Model of the byte-array writers in platform/mod.rs. *)
From Verif Require Import Base Utf8_model.

(** platform/mod.rs:145-169: StringWriter::write.  State: pointer and remaining size. *)
Definition sw_write (m : mem) (w : Z * Z) (buf : list Z) : res (mem * (Z * Z)) :=
  let '(p, n) := w in
  if 1 <? n then
    let copy_size := Z.min (len buf) (n - 1) in
    m1 <- st_list m p (firstn (Z.to_nat copy_size) buf) ;;
    m2 <- st m1 (p + copy_size) 0 ;;
    Ok (m2, (p + copy_size, n - copy_size))
  else Ok (m, w).

(** platform/mod.rs:237-272: CountingWriter over a StringWriter, fed a list of pieces.
    The count is a usize. *)
Fixpoint cw_write_all (m : mem) (w : Z * Z) (written : Z) (pieces : list (list Z)) : res (mem * Z) :=
  match pieces with
  | [] => Ok (m, written)
  | b :: rest =>
      '(m1, w1) <- sw_write m w b ;;
      cw_write_all m1 w1 ((written + len b) mod 18446744073709551616) rest
  end.

(** platform/mod.rs:187-198: UnsafeStringWriter *)
Fixpoint usw_write_all (m : mem) (p : Z) (pieces : list (list Z)) : res mem :=
  match pieces with
  | [] => Ok m
  | b :: rest =>
      m1 <- st_list m p b ;;
      m2 <- st m1 (p + len b) 0 ;;
      usw_write_all m2 (p + len b) rest
  end.
