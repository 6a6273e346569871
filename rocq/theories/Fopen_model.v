(* fopen, freopen with a file name, fclose, and flushing at exit:
   /repo/src/header/stdio/mod.rs 484-505, 680-714, 791-845, 1718-1725,
   /repo/src/header/stdio/helpers.rs 25-94, /repo/src/header/stdlib/mod.rs 380-390.
   The kernel is a small model: files are numbered by name and have contents, a descriptor
   holds its open file description (not shared after dup2: freopen closes the other one at
   once).  No directories, permissions or links, no I/O errors except those of a missing
   file, of O_EXCL and of writing to a descriptor opened for reading.  The descriptor the
   kernel hands out is a parameter.  Locks are left out (C30). *)
From Coq Require Import ZArith List Bool.
From Verif Require Import Base.
Import ListNotations.
Open Scope Z_scope.

Record desc := D { d_file : Z; d_rd : bool; d_wr : bool; d_app : bool; d_cloexec : bool; d_pos : nat }.
Record kernel := K { files : Z -> option (list Z); fds : Z -> option desc }.
Definition set {A} (f : Z -> option A) (x : Z) (v : option A) : Z -> option A := fun y => if y =? x then v else f y.

(* open(2) flags: the access mode as two booleans *)
Record oflags := O { o_rd : bool; o_wr : bool; o_excl : bool; o_cloexec : bool; o_creat : bool; o_trunc : bool; o_app : bool }.
Definition k_open (k : kernel) (nfd name : Z) (o : oflags) : kernel * option Z :=
  let d := D name (o_rd o) (o_wr o) (o_app o) (o_cloexec o) 0 in
  match files k name with
  | Some c =>
      if o_creat o && o_excl o then (k, None)
      else (K (if o_trunc o then set (files k) name (Some []) else files k) (set (fds k) nfd (Some d)), Some nfd)
  | None =>
      if o_creat o then (K (set (files k) name (Some [])) (set (fds k) nfd (Some d)), Some nfd) else (k, None)
  end.
(* fcntl F_SETFD FD_CLOEXEC *)
Definition k_cloexec (k : kernel) (fd : Z) : kernel :=
  match fds k fd with
  | Some d => K (files k) (set (fds k) fd (Some (D (d_file d) (d_rd d) (d_wr d) (d_app d) true (d_pos d))))
  | None => k
  end.
(* fcntl F_SETFL; of the status flags only O_APPEND is modelled *)
Definition k_setfl (k : kernel) (fd : Z) (app : bool) : kernel :=
  match fds k fd with
  | Some d => K (files k) (set (fds k) fd (Some (D (d_file d) (d_rd d) (d_wr d) app (d_cloexec d) (d_pos d))))
  | None => k
  end.
Definition k_dup2 (k : kernel) (old new : Z) : kernel :=
  match fds k old with
  | Some d => K (files k) (set (fds k) new (Some (D (d_file d) (d_rd d) (d_wr d) (d_app d) false (d_pos d))))
  | None => k
  end.
Definition k_close (k : kernel) (fd : Z) : kernel := K (files k) (set (fds k) fd None).
Definition put_at (c : list Z) (pos : nat) (l : list Z) : list Z :=
  firstn pos (c ++ repeat 0 (pos - length c)) ++ l ++ skipn (pos + length l) c.
(* write(2): None is EBADF *)
Definition k_write (k : kernel) (fd : Z) (l : list Z) : option kernel :=
  match fds k fd with
  | Some d =>
      if d_wr d then
        match files k (d_file d) with
        | Some c =>
            let pos := if d_app d then length c else d_pos d in
            Some (K (set (files k) (d_file d) (Some (put_at c pos l)))
                    (set (fds k) fd (Some (D (d_file d) (d_rd d) (d_wr d) (d_app d) (d_cloexec d) (pos + length l)))))
        | None => None
        end
      else None
  | None => None
  end.

(* FILE: f_flags as booleans; f_unget and f_rbuf: input not read yet, f_wbuf: output not
   written yet *)
Record file := F { f_fd : Z; f_perm : bool; f_nord : bool; f_nowr : bool; f_eof : bool; f_err : bool; f_app : bool;
  f_unget : list Z; f_rbuf : list Z; f_wbuf : list Z; f_orient : Z }.

Definition contains (c : Z) (s : list Z) : bool := existsb (Z.eqb c) s.
Definition head (s : list Z) : Z := match s with [] => 0 | c :: _ => c end.
(* helpers.rs 25-49 *)
Definition parse_mode_flags (s : list Z) : oflags :=
  let rdwr := contains 43 s in
  O (rdwr || (head s =? 114)) (rdwr || negb (head s =? 114)) (contains 120 s) (contains 101 s)
    (negb (head s =? 114)) (head s =? 119) (negb (head s =? 119) && (head s =? 97)).
(* helpers.rs 52-94; None: EINVAL *)
Definition fdopen (k : kernel) (fd : Z) (s : list Z) : kernel * option file :=
  if negb (head s =? 114) && negb (head s =? 119) && negb (head s =? 97) then (k, None)
  else
    let nowr := negb (contains 43 s) && (head s =? 114) in
    let nord := negb (contains 43 s) && negb (head s =? 114) in
    let k := if contains 101 s then k_cloexec k fd else k in
    let k := if head s =? 97 then
               match fds k fd with Some d => if d_app d then k else k_setfl k fd true | None => k end
             else k in
    (k, Some (F fd false nord nowr false false (head s =? 97) [] [] [] 0)).
(* mod.rs 680-714 *)
Definition fopen (k : kernel) (nfd name : Z) (s : list Z) : kernel * option file :=
  if negb (head s =? 114) && negb (head s =? 119) && negb (head s =? 97) then (k, None)
  else
    let o := parse_mode_flags s in
    match k_open k nfd name o with
    | (k, None) => (k, None)
    | (k, Some fd) =>
        let k := if o_cloexec o then k_cloexec k fd else k in
        match fdopen k fd s with
        | (k, Some f) => (k, Some f)
        | (k, None) => (k_close k fd, None)
        end
    end.
(* mod.rs 306-314: flush; the output stays pending if it cannot be written *)
Definition flush (k : kernel) (f : file) : kernel * file :=
  match f_wbuf f with
  | [] => (k, f)
  | l =>
      match k_write k (f_fd f) l with
      | Some k => (k, F (f_fd f) (f_perm f) (f_nord f) (f_nowr f) (f_eof f) (f_err f) (f_app f) (f_unget f) (f_rbuf f) [] (f_orient f))
      | None => (k, F (f_fd f) (f_perm f) (f_nord f) (f_nowr f) (f_eof f) true (f_app f) (f_unget f) (f_rbuf f) l (f_orient f))
      end
  end.
(* mod.rs 484-505 *)
Definition fclose (k : kernel) (f : file) : kernel := let '(k, f) := flush k f in k_close k (f_fd f).
(* mod.rs 791-845, filename not null *)
Definition freopen (k : kernel) (nfd name : Z) (s : list Z) (f : file) : kernel * option file :=
  let '(k, f) := flush k f in
  match fopen k nfd name s with
  | (k, None) => (fclose k f, None)
  | (k, Some new) =>
      let k := if f_fd new =? f_fd f then k else k_setfl (k_dup2 k (f_fd new) (f_fd f)) (f_fd f) false in
      let k := if f_fd new =? f_fd f then k else fclose k new in
      (k, Some (F (f_fd f) (f_perm f || f_perm new) (f_nord new) (f_nowr new) (f_eof new) (f_err new) (f_app new)
                  (f_unget f) (f_rbuf f) (f_wbuf f) 0))
  end.
(* mod.rs 1718-1725, stdlib/mod.rs exit: the streams stdout, stderr and the others *)
Definition exit_flush (k : kernel) (out err : file) (others : list file) : kernel :=
  let '(k, _) := flush k out in let '(k, _) := flush k err in k.
