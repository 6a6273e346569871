(* Opening through symbolic links, /repo/src/platform/redox/path.rs 133-289, 345-379.  A scheme
   answers EXDEV for a path whose last component is a link.  The textual canonicalisation, of the
   crate redox_path, is the function from of the specification; whatever the kernel is given it
   canonicalises alike.  Flags, locks and descriptors of directories are left out: the directory
   a path is relative to is given by its own path, as fpath tells it. *)
From Verif Require Import Base Symlink_spec.

Inductive tried := Got (fd : Z) | EXDEV | Err (e : Z).
(* 133-139 *)
Definition open_absolute (t : tree) (p : path) : tried :=
  match t p with File fd => Got fd | Link _ => EXDEV | Unreadable _ => EXDEV | Fail e => Err e end.
(* 141-174: the link at p *)
Definition read_link_content (t : tree) (p : path) : pathname + Z :=
  match t p with Link l => inl l | Unreadable e => inr e | File _ => inr 22 | Fail e => inr e end.
(* 177-198; ELOOP is 40 *)
Fixpoint resolve_sym_links (n : nat) (t : tree) (current : path) : answer :=
  match n with
  | O => Error 40
  | S n =>
      let dirname := tl current in
      match open_absolute t current with
      | Got fd => Opened fd
      | EXDEV =>
          match read_link_content t current with
          | inl target => resolve_sym_links n t (from dirname target)
          | inr e => Error e
          end
      | Err e => Error e
      end
  end.
Definition empty (p : pathname) : bool := negb (absolute p) && match steps p with [] => true | _ => false end.
(* 345-379: dir is the path of dirfd, or of the current directory *)
Definition openat2_path (dir : path) (p : pathname) : path + Z := if empty p then inr 2 else inl (from dir p).
Definition SYMLOOP_MAX : nat := 64.
(* 251-289; cwd is the current directory *)
Definition open (t : tree) (cwd : path) (p : pathname) : answer :=
  if empty p then Error 2
  else
    match open_absolute t (from cwd p) with
    | Got fd => Opened fd
    | EXDEV =>
        match read_link_content t (from cwd p) with
        | inr e => Error e
        | inl link_path =>
            match openat2_path cwd link_path with
            | inr e => Error e
            | inl q => resolve_sym_links SYMLOOP_MAX t q
            end
        end
    | Err e => Error e
    end.
(* 200-248; dir is the path of dirfd, or the current directory for AT_FDCWD *)
Definition openat (t : tree) (cwd dir : path) (p : pathname) : answer :=
  if empty p then Error 2
  else if absolute p then open t cwd p
  else
    match open_absolute t (from dir p) with
    | Got fd => Opened fd
    | EXDEV =>
        match read_link_content t (from dir p) with
        | inr e => Error e
        | inl link_path =>
            match openat2_path dir link_path with
            | inr e => Error e
            | inl q => resolve_sym_links SYMLOOP_MAX t q
            end
        end
    | Err e => Error e
    end.
