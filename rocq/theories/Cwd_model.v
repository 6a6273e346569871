(* The working directory: chdir and fchdir on Redox, and opening by a relative name.
   Objects are numbers.  What the kernel and the crate redox_path do are parameters: see [outside].  Locks, and signals held off while they are taken, are not
   modelled: one thread calls at a time. *)
From Verif Require Import Base.

Definition text := list Z.
Definition obj := Z.
Inductive parsed := Absolute (p : text) | Relative (p : text).
Record outside := Outside {
  parse : text -> option parsed;                 (* RedoxStr::new_from_c *)
  canon : text -> text;                          (* to_standard_canon of an absolute name *)
  canon_as_cwd : text -> text -> text;           (* canonicalize_as_cwd: the name of the directory, the relative name *)
  from_absolute : text -> bool;                  (* RedoxPath::from_absolute succeeds *)
  open : option obj -> text -> obj + Z;          (* open by an absolute name (None), or relative to an object: the object or the error *)
  stat : obj -> option bool;                     (* fstat: None if it fails, else whether it is a directory *)
  path_of : obj -> text + Z;                     (* Sys::fpath *)
  dup : option Z }.                              (* F_DUPFD: None if it succeeds *)
Definition ENOENT : Z := 2.
Definition EBADF : Z := 9.
Definition ENOTDIR : Z := 20.
Definition EINVAL : Z := 22.
Definition ENAMETOOLONG : Z := 36.
Definition PATH_MAX : Z := 4096.

(* platform/redox/path.rs 107-113: CWD, the name and the descriptor; the table of descriptors of the process; the next free descriptor *)
Record state := State { cwd : option (text * Z); table : Z -> option obj; next : Z }.
Definition set (t : Z -> option obj) (d : Z) (o : option obj) : Z -> option obj := fun x => if x =? d then o else t x.
(* FdGuardUpper: a new descriptor, and closing it when the guard is dropped *)
Definition opened (s : state) (o : obj) : state := State (cwd s) (set (table s) (next s) (Some o)) (next s + 1).
Definition closed (s : state) (d : Z) : state := State (cwd s) (set (table s) d None) (next s).
(* the assignment to CWD, which drops what it held *)
Definition assign (s : state) (name : text) (d : Z) : state :=
  let s := match cwd s with Some (_, old) => closed s old | None => s end in State (Some (name, d)) (table s) (next s).

(* platform/redox/path.rs 27-56, mod.rs 187-191; the error, or None for success *)
Definition chdir (k : outside) (s : state) (path : text) : state * option Z :=
  match match parse k path with
        | None => inr EINVAL
        | Some (Absolute p) => inl (canon k p, open k None (canon k p))
        | Some (Relative p) =>
            match cwd s with
            | None => inr ENOENT
            | Some (name, d) => inl (canon_as_cwd k name p, match table s d with Some c => open k (Some c) p | None => inr EBADF end)
            end
        end with
  | inr e => (s, Some e)
  | inl (_, inr e) => (s, Some e)
  | inl (name, inl o) =>
      let d := next s in
      let s := opened s o in
      match stat k o with
      | Some true => if PATH_MAX <? len name then (closed s d, Some ENAMETOOLONG) else (assign s name d, None)
      | _ => (closed s d, Some ENOTDIR)
      end
  end.

(* platform/redox/path.rs 58-74 and 119-126 *)
Definition fchdir (k : outside) (s : state) (fd : Z) : state * option Z :=
  match table s fd with
  | None => (s, Some EBADF)
  | Some o =>
      match path_of k o with
      | inr e => (s, Some e)
      | inl name =>
          match dup k with
          | Some e => (s, Some e)
          | None =>
              let d := next s in
              let s := opened s o in
              if from_absolute k name then (assign s name d, None) else (closed s d, Some EBADF)
          end
      end
  end.

(* platform/redox/path.rs 94-103 and openat: opening a name relative to the working directory *)
Definition open_relative (k : outside) (s : state) (p : text) : obj + Z :=
  match cwd s with
  | None => inr ENOENT
  | Some (_, d) => match table s d with Some c => open k (Some c) p | None => inr EBADF end
  end.
