(* Memory mappings: /repo/src/header/sys_mman/mod.rs 26-37, 81-103, 151-196, redox.rs 3-11, /repo/src/platform/redox/mod.rs 87-91
   (round_up_to_page_size), 828-879 (mmap, mprotect), 909-919 (munmap).  usize has 64 bits.  The kernel's fmap, mprotect and funmap are modelled
   from the documentation of redox_syscall (its MapFlags: the low 5 bits and bits 16-18): pages by number; where it places a mapping
   whose address is free is a parameter. *)
From Coq Require Import String.
From Verif Require Import Base Ctype_spec.
Open Scope string_scope.
Open Scope list_scope.
Open Scope Z_scope.

Definition PAGE_SIZE : Z := 4096.
Definition EBADF : Z := 9.
Definition ENOMEM : Z := 12.
Definition EEXIST : Z := 17.
Definition EINVAL : Z := 22.
Definition MAP_FIXED : Z := 4.
Definition MAP_ANONYMOUS : Z := 32.

Definition round_up (val : Z) : option Z := if val + PAGE_SIZE <? 2 ^ 64 then Some ((val + PAGE_SIZE - 1) / PAGE_SIZE * PAGE_SIZE) else None.

(* what a page shows: a page of an object (None: fresh memory, by the address it was made at), its protection (4 read, 2 write, 1 execute), shared or not *)
Record page := P { obj : option Z; pos : Z; prot : Z; shared : bool }.
Definition space := Z -> option page.
(* a process: its space; the object each descriptor (as usize) names; the kernel's choice of a page number for that many free pages *)
Record kernel := K { pages : space; file : Z -> option Z; free_at : space -> Z -> Z }.
Definition set_pages (k : kernel) (s : space) : kernel := K s (file k) (free_at k).

Definition span (s : space) (p n : Z) (f : Z -> option page) : space := fun q => if (p <=? q) && (q <? p + n) then f q else s q.
Definition any (s : space) (p n : Z) : bool := existsb (fun i => match s (p + Z.of_nat i) with Some _ => true | None => false end) (seq 0 (Z.to_nat n)).

(* MapFlags::from_bits_truncate *)
Definition ALL_FLAGS : Z := 31 + 7 * 65536.
Record map := M { m_offset : Z; m_size : Z; m_flags : Z; m_address : Z }.
(* fmap(fd, map): the address, or errno *)
Definition fmap (k : kernel) (fd : Z) (m : map) : (kernel * Z) + Z :=
  if negb (m_offset m mod PAGE_SIZE =? 0) || negb (m_size m mod PAGE_SIZE =? 0) || negb (m_address m mod PAGE_SIZE =? 0) then inr EINVAL
  else
    let n := m_size m / PAGE_SIZE in
    let hint := m_address m / PAGE_SIZE in
    let fixed := Z.testbit (m_flags m) 2 in
    let noreplace := Z.testbit (m_flags m) 3 in
    let taken := any (pages k) hint n in
    if fixed && noreplace && taken then inr EEXIST
    else
      let p := if fixed then hint else if (hint =? 0) || taken then free_at k (pages k) n else hint in
      let show o := span (pages k) p n (fun q => Some (P o (m_offset m / PAGE_SIZE + (q - p)) (m_flags m / 65536) (Z.testbit (m_flags m) 0))) in
      if fd =? 2 ^ 64 - 1 then inl (set_pages k (show None), p * PAGE_SIZE)
      else match file k fd with
           | Some o => inl (set_pages k (show (Some o)), p * PAGE_SIZE)
           | None => inr EBADF
           end.
Definition as_usize (n : Z) : Z := n mod 2 ^ 64.
(* platform/redox 828-858 *)
Definition mmap (k : kernel) (addr len prot flags fildes off : Z) : (kernel * Z) + Z :=
  if len =? 0 then inr EINVAL
  else match round_up len with
       | None => inr ENOMEM
       | Some size =>
           let m := M (as_usize off) size (Z.land (Z.lor (Z.shiftl prot 16) (Z.land flags 65535)) ALL_FLAGS) addr in
           if Z.land flags MAP_ANONYMOUS =? MAP_ANONYMOUS then fmap k (2 ^ 64 - 1) m else fmap k (as_usize fildes) m
       end.
(* the kernel's mprotect: all pages must be there *)
Definition all (s : space) (p n : Z) : bool := forallb (fun i => match s (p + Z.of_nat i) with Some _ => true | None => false end) (seq 0 (Z.to_nat n)).
Definition sys_mprotect (k : kernel) (addr len flags : Z) : kernel + Z :=
  if negb (addr mod PAGE_SIZE =? 0) then inr EINVAL
  else
    let p := addr / PAGE_SIZE in let n := len / PAGE_SIZE in
    if all (pages k) p n then
      inl (set_pages k (span (pages k) p n (fun q => match pages k q with Some g => Some (P (obj g) (pos g) (flags / 65536) (shared g)) | None => None end)))
    else inr ENOMEM.
(* 870-879 *)
Definition mprotect (k : kernel) (addr len prot : Z) : kernel + Z :=
  match round_up len with
  | None => inr ENOMEM
  | Some len =>
      let f := as_usize (Z.shiftl prot 16) in
      if Z.land f ALL_FLAGS =? f then sys_mprotect k addr len f else inr EINVAL
  end.
Definition funmap (k : kernel) (addr len : Z) : kernel + Z :=
  if negb (addr mod PAGE_SIZE =? 0) then inr EINVAL
  else inl (set_pages k (span (pages k) (addr / PAGE_SIZE) (len / PAGE_SIZE) (fun _ => None))).
(* 909-919 *)
Definition munmap (k : kernel) (addr len : Z) : kernel + Z :=
  if len =? 0 then inr EINVAL
  else match round_up len with
       | None => inr ENOMEM
       | Some len => funmap k addr len
       end.

(* sys_mman 161-181 *)
Definition SHM_PATH : list Z := codes "/scheme/shm/".
Fixpoint skip_slash (s : list Z) : list Z := match s with 47 :: s => skip_slash s | _ => s end.
Definition shm_path (name : list Z) : list Z := SHM_PATH ++ skip_slash name.
(* 185-188: what open is called with *)
Definition shm_open (name : list Z) (oflag mode : Z) : list Z * Z * Z := (shm_path name, oflag, mode).
