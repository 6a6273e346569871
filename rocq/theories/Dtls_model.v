(* Model of thread-local storage on x86_64: the layout of the static block
   (ld_so/linker.rs 800-866, dso.rs 385-426, 670-685), Tcb::new, copy_masters,
   append_masters, setup_dtv (ld_so/tcb.rs), the creation of threads (pthread/mod.rs
   166-173, 241), __tls_get_addr (header/dl-tls/mod.rs), TPOFF relocations (dso.rs
   1102-1118).  Programs linked dynamically; every address is below 2^64.
   The kernel and the allocator give the addresses (parameters). *)
From Coq Require Import ZArith List Bool.
From Verif Require Import Base.
Import ListNotations.
Open Scope Z_scope.

(* PT_TLS of an object: initial image, size, alignment. *)
Record seg := Seg { img : list Z; msz : Z; aln : Z }.
(* tcb.rs 22-31 Master *)
Record master := Mst { mimg : list Z; mseg : Z; moff : Z }.
(* tcb.rs 47-65 Tcb; dtv: None for the null pointer. *)
Record tcb := Tcb { tend : Z; tlen : Z; masters : list master; ncop : nat; dtv : option (list Z) }.

Definition bytes := Z -> Z.
Definition up (n k : Z) : Z := (n + k - 1) / k * k.
Definition zlen (l : list Z) : Z := Z.of_nat (length l).

(* Writing a list of bytes at an address. *)
Definition blit (m : bytes) (p : Z) (l : list Z) : bytes :=
  fun a => if (p <=? a) && (a <? p + zlen l) then nth (Z.to_nat (a - p)) l 0 else m a.
Definition zeros (n : Z) : list Z := repeat 0 (Z.to_nat n).

(* dso.rs 678-683 with linker.rs 848, 863: tls_size is the offset of the last one. *)
Definition place (size : Z) (s : seg) : master := Mst (img s) (msz s) (up size 16 + msz s).
(* linker.rs 862-866: the objects loaded with the program, in load order. *)
Fixpoint static_layout (size : Z) (l : list seg) : list master :=
  match l with [] => [] | s :: l => place size s :: static_layout (moff (place size s)) l end.
Definition tls_size (l : list seg) : Z := fold_left (fun n s => moff (place n s)) l 0.

(* tcb.rs 78-113 with 291-305, 352-362: [base]: where the kernel maps the TLS area. *)
Definition new_tcb (page : Z) (m : bytes) (base size : Z) : bytes * tcb :=
  let len := up size page in
  (blit m base (zeros len), Tcb (base + len) len [] 0 None).

(* tcb.rs 153-188 copy_masters; Err: Fault.  tls_len - offset below 0 wraps, and the
   range is then not within the area. *)
Fixpoint copy_loop (m : bytes) (e len : Z) (l : list master) : res bytes :=
  match l with
  | [] => Ok m
  | x :: l =>
      if zlen (mimg x) =? 0 then copy_loop m e len l
      else
        let lo := len - moff x in
        if (0 <=? lo) && (lo + zlen (mimg x) <=? len)
        then copy_loop (blit m (e - len + lo) (mimg x)) e len l
        else Fault
  end.
Definition copy_masters (m : bytes) (t : tcb) : res (bytes * tcb) :=
  if tlen t =? 0 then Ok (m, t)
  else match masters t with
       | [] => Ok (m, t)
       | _ => m <- copy_loop m (tend t) (tlen t) (skipn (ncop t) (masters t)) ;;
              Ok (m, Tcb (tend t) (tlen t) (masters t) (length (masters t)) (dtv t))
       end.

Definition set_dtv (t : tcb) d := Tcb (tend t) (tlen t) (masters t) (ncop t) (Some d).
Definition pad (l : list Z) (n : nat) : list Z := firstn n l ++ repeat 0 (n - length l).
(* tcb.rs 226-268 setup_dtv; the area is there if there are masters. *)
Definition setup_dtv (t : tcb) (n : nat) : tcb :=
  match dtv t with
  | None => set_dtv t (pad (map (fun x => tend t - tlen t + (tlen t - moff x)) (masters t)) n)
  | Some d => set_dtv t (pad d n)
  end.

Fixpoint set_nth (l : list Z) (i : nat) (v : Z) : list Z :=
  match l, i with [], _ => [] | _ :: r, O => v :: r | x :: r, S i => x :: set_nth r i v end.

(* linker.rs 652-719 at the start of a program: the blocks of the modules, in the DTV.  tls_module_id of the
   i-th module is i + 1 (870-871). *)
Definition start_tls (page : Z) (m : bytes) (base : Z) (l : list seg) : res (bytes * tcb) :=
  let (m, t) := new_tcb page m base (tls_size l) in
  let ms := static_layout 0 l in
  let t := set_dtv t (map (fun x => tend t - moff x) ms) in
  copy_masters m (Tcb (tend t) (tlen t) ms 0 (dtv t)).

(* pthread/mod.rs 166-173 and 241; copy_masters().unwrap() *)
Definition spawn_tls (page : Z) (m : bytes) (base : Z) (cur : tcb) : res (bytes * tcb) :=
  let (m, t) := new_tcb page m base (tlen cur) in
  match copy_masters m (Tcb (tend t) (tlen t) (masters cur) 0 None) with Fault => Panic | r => r end.

(* linker.rs 856-871, 714-719: dlopen numbers the new modules, from next_tls_module_id,
   and appends their masters to those of the current thread; it leaves tls_size alone.  If
   it fails, the numbers are used up but the masters dropped. *)
Definition dlopen_tls (size : Z) (next : Z) (t : tcb) (l : list seg) (ok : bool) : Z * tcb :=
  (next + Z.of_nat (length l),
   if ok then Tcb (tend t) (tlen t) (masters t ++ map (place size) l) (ncop t) (dtv t) else t).

(* dl-tls/mod.rs 22-92; [alloc]: the address the allocator gives, not null.  A module
   number out of bounds gives the null pointer. *)
Definition tls_get_addr (m : bytes) (t : tcb) (modul : Z) (off : Z) (alloc : Z) : res (bytes * tcb * Z) :=
  match masters t with
  | [] => Panic
  | _ =>
      let have := match dtv t with Some d => d | None => [] end in
      let t := if (length have <? length (masters t))%nat then setup_dtv t (length (masters t)) else t in
      let d := match dtv t with Some d => d | None => [] end in
      let i := Z.to_nat (modul - 1) in
      if (length d <=? i)%nat then Ok (m, t, 0)
      else if nth i d 0 =? 0 then
        match nth_error (masters t) i with
        | None => Panic
        | Some x => Ok (blit (blit m alloc (mimg x)) (alloc + zlen (mimg x)) (zeros (mseg x - zlen (mimg x))),
                        set_dtv t (set_nth d i alloc), alloc + off)
        end
      else Ok (m, t, nth i d 0 + off)
  end.

(* dso.rs 1102-1118: what a TPOFF relocation stores, added to the thread pointer (tls_end)
   by the code. *)
Definition tpoff (x : master) (value addend : Z) : Z := value + addend - moff x.
