(* The descriptor table relibc keeps on Redox, /repo/redox-rt/src/sys.rs 578-1578, under
   open, dup, dup2, fcntl, close and pipe2.  Descriptors are natural numbers: negative
   arguments, which the code reads as descriptors of its own upper table, are left out.
   max is CONTEXT_MAX_FILES, 65536.  Telling the kernel the size of the table (sync_size)
   is taken to succeed. *)
From Coq Require Import ZArith List Bool Arith.
From Verif Require Import Fdtbl_spec.
Import ListNotations.

(* FdFlags 1255-1263: None is VACANT, Some c is OCCUPIED with or without CLOEXEC *)
Definition entry := option bool.
(* PosixFdTbl 1250-1253, and active_count of FdTbl 919-924 *)
Record tbl := T { ents : list entry; low : nat; active : nat }.
Section Table.
Variable max : nat.

Definition get (l : list entry) (k : nat) : entry := match nth_error l k with Some e => e | None => None end.
Fixpoint setn (l : list entry) (k : nat) (v : entry) : list entry :=
  match l, k with
  | [], _ => []
  | _ :: r, O => v :: r
  | x :: r, S k => x :: setn r k v
  end.
(* 1328-1330 *)
Definition resize (l : list entry) (n : nat) : list entry := firstn n l ++ repeat None (n - length l).
(* 1363-1369: the loop runs over the occupied entries from start_from *)
Fixpoint lead (l : list entry) : nat := match l with Some _ :: r => S (lead r) | _ => 0 end.
Definition update_low (l : list entry) (from : nat) : nat := from + lead (skipn from l).

(* 1409-1428 *)
Definition add (t : tbl) (c : bool) : tbl * nat :=
  let h := low t in
  if length (ents t) <=? h then (T (ents t ++ [Some c]) (h + 1) (active t), h)
  else let l := setn (ents t) h (Some c) in (T l (update_low l (h + 1)) (active t), h).
(* 1474-1504 *)
Definition insert_at (t : tbl) (h : nat) (c : bool) : tbl + Z :=
  if max <=? h then inr 24%Z
  else
    let l := setn (if length (ents t) <=? h then resize (ents t) (h + 1) else ents t) h (Some c) in
    inl (T l (if h <=? low t then update_low l h else low t) (active t)).
(* 1550-1562, and active_count 1229-1247 *)
Definition remove (t : tbl) (h : nat) : tbl :=
  match get (ents t) h with
  | None => t
  | Some _ => T (setn (ents t) h None) (if h <? low t then h else low t) (active t - 1)
  end.
(* 1098-1108 *)
Definition add_posix (t : tbl) (c : bool) : (tbl * nat) + Z :=
  if max <=? active t then inr 24%Z
  else let (t1, h) := add t c in inl (T (ents t1) (low t1) (active t1 + 1), h).
(* 1077-1097 *)
Definition override_at (t : tbl) (fd : nat) : tbl * option Z :=
  let t1 := remove t fd in
  match insert_at t1 fd false with
  | inr e => (t1, Some e)
  | inl t2 => (T (ents t2) (low t2) (active t2 + 1), None)
  end.
(* 1015-1052 *)
Definition get_flags (t : tbl) (fd : nat) : bool + Z :=
  match get (ents t) fd with Some c => inl c | None => inr 9%Z end.
Definition set_flags (t : tbl) (fd : nat) (c : bool) : tbl + Z :=
  match get (ents t) fd with
  | Some _ => inl (T (setn (ents t) fd (Some c)) (low t) (active t))
  | None => inr 9%Z
  end.

(* the kernel's table *)
Definition kernel := nat -> option Z.
Definition kput (k : kernel) (fd : nat) (x : option Z) : kernel := fun i => if i =? fd then x else k i.
(* F_DUPFD in the kernel: the lowest free from out; n bounds the search *)
Fixpoint kfree (n : nat) (k : kernel) (out : nat) : nat :=
  match n with O => out | S n => match k out with None => out | Some _ => kfree n k (S out) end end.

Definition state := (tbl * kernel)%type.

(* openat_into_posix 585-619; f: what SYS_OPENAT_INTO makes of it *)
Definition openat (s : state) (f : Z + Z) (c : bool) : state * answer :=
  let (t, k) := s in
  match add_posix t c with
  | inr e => (s, Err e)
  | inl (t1, out) =>
      match f with
      | inr e => ((remove t1 out, k), Err e)
      | inl f => ((t1, kput k out (Some f)), Fd out)
      end
  end.
(* 687-727 with buf; f: the file the scheme gives for the buffer *)
Definition dup_buf (s : state) (fd : nat) (f : Z + Z) : state * answer :=
  let (t, k) := s in
  match add_posix t false with
  | inr e => (s, Err e)
  | inl (t1, out) =>
      match k fd, f with
      | None, _ => ((remove t1 out, k), Err 9%Z)
      | _, inr e => ((remove t1 out, k), Err e)
      | _, inl f => ((t1, kput k out (Some f)), Fd out)
      end
  end.
(* 660-686 *)
Definition dup2 (s : state) (a b : nat) : state * answer :=
  let (t, k) := s in
  match override_at t b with
  | (t1, Some e) => ((t1, k), Err e)
  | (t1, None) =>
      match k a with
      | None => ((remove t1 b, k), Err 9%Z)
      | Some f => ((t1, kput k b (Some f)), Fd b)
      end
  end.
(* 744-783 *)
Definition dupfd (s : state) (fd : nat) (c : bool) : state * answer :=
  let (t, k) := s in
  match add_posix t c with
  | inr e => (s, Err e)
  | inl (t1, out) =>
      match k fd with
      | None => ((remove t1 out, k), Err 9%Z)
      | Some f =>
          let n := kfree max k out in
          let k1 := kput k n (Some f) in
          if n =? out then ((t1, k1), Fd n)
          else
            match override_at (remove t1 out) n with
            | (t2, Some e) => ((t2, k1), Err e)
            | (t2, None) =>
                if c then match set_flags t2 n true with inr e => ((t2, k1), Err e) | inl t3 => ((t3, k1), Fd n) end
                else ((t2, k1), Fd n)
            end
      end
  end.
(* 893-906 *)
Definition close (s : state) (fd : nat) : state * answer :=
  let (t, k) := s in
  match k fd with
  | Some _ => ((remove t fd, kput k fd None), Done)
  | None => ((remove t fd, k), Err 9%Z)
  end.
(* 785-799 *)
Definition getfd (s : state) (fd : nat) : state * answer :=
  match get_flags (fst s) fd with inl c => (s, Flag c) | inr e => (s, Err e) end.
Definition setfd (s : state) (fd : nat) (c : bool) : state * answer :=
  let (t, k) := s in
  match k fd with
  | None => (s, Err 9%Z)
  | Some _ => match set_flags t fd c with inr e => (s, Err e) | inl t1 => ((t1, k), Done) end
  end.
(* /repo/src/platform/redox/extra.rs 23-40; dropping the guard of the read end closes it *)
Definition pipe2 (s : state) (f : Z * Z + Z) (c : bool) : state * answer :=
  match openat s (match f with inl (r, _) => inl r | inr e => inr e end) c with
  | (s1, Fd a) =>
      match dup_buf s1 a (match f with inl (_, w) => inl w | inr e => inr e end) with
      | (s2, Fd b) =>
          match setfd s2 b c with
          | (s3, Done) => (s3, Fds a b)
          | (s3, e) => (fst (close (fst (close s3 b)) a), e)
          end
      | (s2, e) => (fst (close s2 a), e)
      end
  | r => r
  end.

(* /repo/src/platform/redox/mod.rs 241-248, 331-441, 952-970, pal/mod.rs 76-78: dup is
   F_DUPFD with 0, and the minimum of F_DUPFD is not looked at *)
Definition step (s : state) (o : op) : state * answer :=
  match o with
  | Open f c => openat s f c
  | Dup fd => dupfd s fd false
  | Dup2 a b => dup2 s a b
  | DupFd fd _ c => dupfd s fd c
  | Close fd => close s fd
  | GetFd fd => getfd s fd
  | SetFd fd c => setfd s fd c
  | Pipe f c => pipe2 s f c
  end.
Fixpoint steps (s : state) (ops : list op) : state * list answer :=
  match ops with
  | [] => (s, [])
  | o :: r => let (s1, a) := step s o in let (s2, l) := steps s1 r in (s2, a :: l)
  end.

(* from_binary_fd 943-968 with DEFAULT_CAPACITY n: the descriptors the kernel reports *)
Fixpoint populate (t : tbl) (l : list nat) : option tbl :=
  match l with
  | [] => Some t
  | fd :: r => match override_at t fd with (t1, None) => populate t1 r | _ => None end
  end.
Definition from_kernel (n : nat) (l : list nat) : option tbl := populate (T (resize [] n) 0 0) l.

(* exec, /repo/redox-rt/src/proc.rs 486-530: FdTblIter gives the occupied entries *)
Definition exec (s : state) : kernel :=
  fun fd => match get (ents (fst s)) fd with Some true => None | _ => snd s fd end.
End Table.
