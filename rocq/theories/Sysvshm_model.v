(* System V shared memory: /repo/src/header/sys_shm/mod.rs 51-140, /repo/src/platform/redox/mod.rs 828-858, 909-919 (mmap, munmap).
   The names /sysv_priv_<pid> and /sysv_key_<key> are constructors, since decimal numerals differ when
   the numbers do.  Of the kernel is assumed: shm objects are opened, created and unlinked by
   name like files and live on when unlinked; ftruncate clears what it adds; a shared mapping
   shows the bytes of the object, is put where the kernel chooses (argument a), and writing to a
   mapping without PROT_WRITE faults. *)
From Verif Require Import Base Word_mem.

Inductive name := Priv (pid : Z) | Key (key : Z).
Definition same_name (a b : name) : bool := match a, b with Priv x, Priv y | Key x, Key y => x =? y | _, _ => false end.
Record world := W {
  names : list (name * Z);              (* name, object *)
  sizes : Z -> Z;
  contents : Z -> Z -> Z;               (* object, offset *)
  fds : Z -> option Z;
  space : Z -> option (Z * Z * bool);   (* address: object, offset, writable *)
  objects : Z                           (* those below have been used *)
}.
Definition EINVAL : Z := 22.
Definition EEXIST : Z := 17.
Definition ENOENT : Z := 2.
Definition EBADF : Z := 9.
Definition IPC_CREAT : Z := 512.
Definition IPC_EXCL : Z := 1024.
Definition IPC_PRIVATE : Z := 0.
Definition SHM_RDONLY : Z := 4096.
Definition HEADER : Z := 8.

(* the kernel *)
Definition find (l : list (name * Z)) (n : name) : option Z :=
  match List.find (fun x => same_name (fst x) n) l with Some x => Some (snd x) | None => None end.
Definition open (w : world) (n : name) (creat excl : bool) (fd : Z) : world + Z :=
  let take w o := W (names w) (sizes w) (contents w) (fun k => if k =? fd then Some o else fds w k) (space w) (objects w) in
  match find (names w) n with
  | Some o => if creat && excl then inr EEXIST else inl (take w o)
  | None =>
      if creat then
        let o := objects w in
        inl (take (W ((n, o) :: names w) (fun k => if k =? o then 0 else sizes w k) (fun k => if k =? o then fun _ => 0 else contents w k) (fds w) (space w) (o + 1)) o)
      else inr ENOENT
  end.
Definition ftruncate (w : world) (o size : Z) : world :=
  W (names w) (fun k => if k =? o then size else sizes w k)
    (fun k => if k =? o then fun i => if (i <? size) && (i <? sizes w o) then contents w o i else 0 else contents w k) (fds w) (space w) (objects w).
Definition unlink (w : world) (n : name) : world :=
  W (filter (fun x => negb (same_name (fst x) n)) (names w)) (sizes w) (contents w) (fds w) (space w) (objects w).
Definition page_up (n : Z) : Z := (n + 4095) / 4096 * 4096.
Definition map (w : world) (a n o : Z) (wr : bool) : world :=
  W (names w) (sizes w) (contents w) (fds w) (fun x => if (a <=? x) && (x <? a + n) then Some (o, x - a, wr) else space w x) (objects w).
Definition unmap (w : world) (a n : Z) : world :=
  W (names w) (sizes w) (contents w) (fds w) (fun x => if (a <=? x) && (x <? a + n) then None else space w x) (objects w).
(* the processor *)
Definition load (w : world) (x : Z) : res Z := match space w x with Some (o, i, _) => Ok (contents w o i) | None => Fault end.
Definition store (w : world) (x v : Z) : res world :=
  match space w x with
  | Some (o, i, true) =>
      Ok (W (names w) (sizes w) (fun k => if k =? o then fun j => if j =? i then v else contents w o j else contents w k) (fds w) (space w) (objects w))
  | _ => Fault
  end.
Fixpoint stores (w : world) (x : Z) (l : list Z) : res world :=
  match l with [] => Ok w | v :: l => w <- store w x v ;; stores w (x + 1) l end.
Fixpoint load_le (k : nat) (w : world) (x : Z) : res Z :=
  match k with O => Ok 0 | S k => b <- load w x ;; r <- load_le k w (x + 1) ;; Ok (b + 256 * r) end.

(* 51-90; fd is the descriptor open gives *)
Definition shmget (w : world) (pid key size flg fd : Z) : world * (Z + Z) :=
  let n := if key =? IPC_PRIVATE then Priv pid else Key key in
  let creat := negb (Z.land flg IPC_CREAT =? 0) in
  match open w n creat (negb (Z.land flg IPC_EXCL =? 0)) fd with
  | inr e => (w, inr e)
  | inl w =>
      let total := size + HEADER in
      if creat && (2 ^ 64 <=? total) then (w, inr EINVAL)
      else if creat && (2 ^ 63 <=? total) then (w, inr EINVAL)   (* ftruncate, of a negative length *)
      else
        let w := match fds w fd with Some o => if creat then ftruncate w o total else w | None => w end in
        (unlink w n, inl fd)
  end.
(* 92-119; the second argument of the function is not used *)
Definition shmat (w : world) (id flg a : Z) : res (world * (Z + Z)) :=
  match fds w id with
  | None => Ok (w, inr EBADF)
  | Some o =>
      let size := sizes w o in
      let wr := Z.land flg SHM_RDONLY =? 0 in
      if size =? 0 then Ok (w, inr EINVAL)
      else
        w <- stores (map w a (page_up size) o wr) a (le_bytes 8 size) ;;
        Ok (w, inl (a + HEADER))
  end.
(* 121-135; SHM_FAILED is the address 2^64 - 1; the errors are of mmap's munmap *)
Definition shmdt (w : world) (p : Z) : res (world * (Z + Z)) :=
  if (p =? 0) || (p =? 2 ^ 64 - 1) then Ok (w, inr 0)
  else
    total <- load_le 8 w (p - HEADER) ;;
    if total =? 0 then Ok (w, inr EINVAL) else Ok (unmap w (p - HEADER) (page_up total), inl 0).
