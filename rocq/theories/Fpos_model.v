(* Model of streams with a file position: header/stdio/mod.rs fseek_locked, fseeko,
   fsetpos, rewind, ftell_locked, fgetpos, fclose (its flush), over the models of
   buffered input (Istream_model) and buffered output (Ostream_model) sharing one
   descriptor of a regular file.  off_t is a number without bounds. *)
From Coq Require Import ZArith List Bool.
From Verif Require Import Base Istream_model Ostream_model.
Import ListNotations.
Open Scope Z_scope.

(* write(2) at offset o (not past the end of data the file has holes, which read as 0). *)
Definition write_at (F : list Z) (o : nat) (d : list Z) : list Z :=
  match d with
  | [] => F
  | _ => firstn o (F ++ repeat 0 (o - length F)) ++ d ++ skipn (o + length d) F
  end.

(* The file, the offset of the descriptor, O_APPEND, and the parts of FILE (mod.rs
   225-246): [rd] reading half and flags (its [inp] is recomputed from the file),
   [wr] the writer; [wcalls]: number of write(2) so far. *)
Record fstream := FS { disk : list Z; off : nat; app : bool; rd : istream; wr : writer; wcalls : nat }.

Definition set_inp (s : istream) (l : list Z) := IS l (reads s) (rb s) (rpos s) (rsize s) (unget s) (flags s).

(* A call of the reading half: read(2) advances the offset by what it returns. *)
Definition f_in (rorc : nat -> rres) (s : fstream) (o : iop) : res (fstream * (Z * list Z)) :=
  let i := set_inp (rd s) (skipn (off s) (disk s)) in
  ' p <- i_exec rorc i o ;;
  let (i', v) := p in
  Ok (FS (disk s) (off s + (length (inp i) - length (inp i'))) (app s) i' (wr s) (wcalls s), v).

(* A call of the writing half: write(2) stores at the offset, with O_APPEND at the end. *)
Definition f_out (k : wkind) (cap : nat) (worc : nat -> wres) (s : fstream) (o : op) : res (fstream * Z) :=
  match o_exec k cap worc (Stream (Dev [] (wcalls s)) (wr s) false) o with
  | None => OutOfFuel
  | Some (t, v) =>
      let d := out (sdev t) in
      let at_ := if app s then length (disk s) else off s in
      let i := if ferr t then set_flags (rd s) (Z.lor (flags (rd s)) F_ERR) else rd s in
      Ok (match d with
          | [] => FS (disk s) (off s) (app s) i (swr t) (calls (sdev t))
          | _ => FS (write_at (disk s) at_ d) (at_ + length d) (app s) i (swr t) (calls (sdev t))
          end, v)
  end.

Inductive whence := SEEK_SET | SEEK_CUR | SEEK_END.
(* lseek(2) on a regular file: None is EINVAL. *)
Definition lseek (s : fstream) (d : Z) (w : whence) : option nat :=
  let t := match w with SEEK_SET => 0 | SEEK_CUR => Z.of_nat (off s) | SEEK_END => Z.of_nat (length (disk s)) end + d in
  if t <? 0 then None else Some (Z.to_nat t).

(* mod.rs 866-888 fseek_locked *)
Definition fseek (k : wkind) (cap : nat) (worc : nat -> wres) (s : fstream) (d : Z) (w : whence) : res (fstream * Z) :=
  let d := match w with SEEK_CUR => d - Z.of_nat (rsize (rd s) - rpos (rd s)) | _ => d end in
  ' p <- f_out k cap worc s OpFlush ;;
  let (s, v) := p in
  if v =? 0 then
    match lseek s d w with
    | None => Ok (s, -1)
    | Some n =>
        let i := rd s in
        Ok (FS (disk s) n (app s)
              (IS (inp i) (reads i) (rb i) 0 0 [] (Z.land (flags i) (Z.lnot (Z.lor F_EOF F_ERR)))) (wr s) (wcalls s), 0)
    end
  else Ok (s, -1).

(* mod.rs 915-924 ftell_locked; FileInnerWriter::pending is the length of the buffer. *)
Definition ftell (s : fstream) : Z :=
  match lseek s 0 SEEK_CUR with
  | None => -1
  | Some p => Z.of_nat p - Z.of_nat (rsize (rd s) - rpos (rd s)) - Z.of_nat (length (unget (rd s))) + Z.of_nat (length (wbuf (wr s)))
  end.

(* A call of the application: reading, writing (and fflush), fseek, fseeko and fsetpos
   (894-896: SEEK_SET), rewind (1330-1332: SEEK_SET 0), ftell, ftello and fgetpos (577-587). *)
Inductive fop := FIn (o : iop) | FOut (o : op) | FSeek (d : Z) (w : whence) | FTell.
Definition f_exec (k : wkind) (cap : nat) (rorc : nat -> rres) (worc : nat -> wres) (s : fstream) (o : fop)
    : res (fstream * (Z * list Z)) :=
  match o with
  | FIn o => f_in rorc s o
  | FOut o => ' p <- f_out k cap worc s o ;; let (s, v) := p in Ok (s, (v, []))
  | FSeek d w => ' p <- fseek k cap worc s d w ;; let (s, v) := p in Ok (s, (v, []))
  | FTell => Ok (s, (ftell s, []))
  end.
Fixpoint f_run k cap rorc worc (s : fstream) (l : list fop) : res (fstream * list (Z * list Z)) :=
  match l with
  | [] => Ok (s, [])
  | o :: r =>
      ' p <- f_exec k cap rorc worc s o ;;
      let (s1, v) := p in
      ' q <- f_run k cap rorc worc s1 r ;;
      let (s2, vs) := q in Ok (s2, v :: vs)
  end.

(* mod.rs 680-716 fopen of a file with contents F, and helpers.rs 53-94 _fdopen: no
   seek, in no mode.  b: the read buffer, as setvbuf may have changed it. *)
Definition f_open (F : list Z) (a : bool) (b : option (list Z)) : fstream :=
  FS F 0 a (IS [] 0 b 0 0 [] 0) (Writer [] false) 0.
