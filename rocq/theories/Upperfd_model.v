(* The upper descriptor table of relibc on Redox, /repo/redox-rt/src/sys.rs: UpperFdTbl
   1579-1924 and the operations of FdTbl 919-1248 that reach it.  Tables are lists.  The POSIX
   half of FdTbl is Fdtbl_model (C102); here it is only the count it adds to active_count.
   cap is the number of entries the process has memory for; growing past it ends the
   process (Nomem).  k is the kernel's answer to the request sync_size makes, if it makes one.  kt, which relibc does not have, remembers the last size
   the kernel was made to have. *)
From Coq Require Import ZArith List Bool.
From Verif Require Import Upperfd_spec.
Import ListNotations.
Open Scope Z_scope.

Definition w32 (z : Z) : Z := z mod 4294967296.
Definition w64 (z : Z) : Z := z mod 18446744073709551616.

(* FdTblEntry 1580-1583 *)
Inductive entry : Type := Vac (next : Z) | Occ (flag : Z).
(* UpperFdTbl 1591-1595, FdTbl 919-924: has is whether the table's own descriptor is set *)
Record fdt := T { tab : list entry; cnt : Z; first : Z; active : Z; has : bool; kt : Z }.
(* Unreach is unreachable!, an index out of range or a failed expect *)
Inductive out : Type := Val (t : fdt) (a : ans) | Unreach | Nomem.

Fixpoint getz (l : list entry) (i : Z) : option entry :=
  match l with [] => None | e :: r => if i =? 0 then Some e else getz r (i - 1) end.
(* table[i] = e *)
Fixpoint setz (l : list entry) (i : Z) (e : entry) : option (list entry) :=
  match l with
  | [] => None
  | x :: r => if i =? 0 then Some (e :: r) else match setz r (i - 1) e with Some r' => Some (x :: r') | None => None end
  end.
Definition tlen (l : list entry) : Z := Z.of_nat (length l).

(* 1004-1010, 1641-1643 *)
Definition strip_tags (d : Z) : Z := Z.ldiff d TAG.
Definition is_upper (d : Z) : bool := negb (Z.land d TAG =? 0).
Definition tagged (i : Z) : Z := Z.lor i TAG.

(* 1914-1923: s is the index of the head of l *)
Fixpoint rebuild (l : list entry) (s : Z) : list entry * Z :=
  match l with
  | [] => ([], MAXF)
  | e :: r =>
      let (r', nx) := rebuild r (s + 1) in
      match e with
      | Vac _ => (Vac nx :: r', w32 s)
      | Occ f => (Occ f :: r', nx)
      end
  end.
Definition rebuild_free_list (t : fdt) : fdt :=
  let (l, nx) := rebuild (tab t) 0 in T l (cnt t) nx (active t) (has t) (kt t).

Definition with_tab (t : fdt) (l : list entry) : fdt := T l (cnt t) (first t) (active t) (has t) (kt t).
Definition with_cnt (t : fdt) (c : Z) : fdt := T (tab t) c (first t) (active t) (has t) (kt t).
Definition with_active (t : fdt) (n : Z) : fdt := T (tab t) (cnt t) (first t) n (has t) (kt t).

Section Table.
Variable cap : Z.

(* 1645-1653: only ever to a larger size here *)
Definition resize (t : fdt) (n : Z) : option fdt :=
  if cap <? n then None
  else Some (rebuild_free_list (with_tab t (firstn (Z.to_nat n) (tab t) ++ repeat (Vac MAXF) (Z.to_nat (n - tlen (tab t)))))).
(* 1055-1075: the error, or the table with the size the kernel now has *)
Definition sync_size (k : kernel) (t : fdt) (n : Z) : fdt + Z :=
  if has t then
    match k n with
    | None => inl (T (tab t) (cnt t) (first t) (active t) (has t) n)
    | Some e => if e =? EINVAL then inl t else inr e
    end
  else inl t.

(* 1618-1624 *)
Definition get_flags (t : fdt) (d : Z) : option Z :=
  match getz (tab t) (strip_tags d) with Some (Occ f) => Some f | _ => None end.
(* 1735-1757; an error leaves the table at its length, 1667-1678 *)
Definition insert (k : kernel) (t : fdt) (f : Z) : out :=
  if first t =? MAXF then
    let old := tlen (tab t) in
    match sync_size k t (old + 1) with
    | inr e => Val t (Err e)
    | inl t =>
        if cap <? old + 1 then Nomem
        else Val (with_cnt (with_tab t (tab t ++ [Occ f])) (w32 (cnt t + 1))) (Fds [old])
    end
  else
    match getz (tab t) (first t) with
    | Some (Vac nx) =>
        match setz (tab t) (first t) (Occ f) with
        | Some l => Val (T l (w32 (cnt t + 1)) nx (active t) (has t) (kt t)) (Fds [first t])
        | None => Unreach
        end
    | _ => Unreach
    end.
(* 1804-1835 *)
Definition insert_at (k : kernel) (t : fdt) (h : Z) (f : Z) : out :=
  let place (t : fdt) : out :=
    match getz (tab t) h, setz (tab t) h (Occ f) with
    | Some (Vac _), Some l => Val (rebuild_free_list (with_cnt (with_tab t l) (w32 (cnt t + 1)))) (Fds [h])
    | Some (Occ _), Some l => Val (with_tab t l) (Fds [h])
    | _, _ => Unreach
    end in
  if tlen (tab t) <=? h then
    match sync_size k t (h + 1) with
    | inr e => Val t (Err e)
    | inl t => match resize t (h + 1) with None => Nomem | Some t => place t end
    end
  else place t.
(* 1886-1901 *)
Definition remove (t : fdt) (h : Z) : option fdt :=
  match getz (tab t) h with
  | Some (Occ _) =>
      match setz (tab t) h (Vac (first t)) with
      | Some l => Some (T l (w32 (cnt t - 1)) (w32 h) (active t) (has t) (kt t))
      | None => None
      end
  | _ => None
  end.
(* 1714-1733 *)
Fixpoint free_block (l : list entry) (i start count n : Z) : Z :=
  match l with
  | [] => if count =? 0 then i else start
  | Vac _ :: r =>
      let start := if count =? 0 then i else start in
      if count + 1 =? n then start else free_block r (i + 1) start (count + 1) n
  | Occ _ :: r => free_block r (i + 1) start 0 n
  end.
Definition find_free_block (t : fdt) (n : Z) : Z := free_block (tab t) 0 0 0 n.
Fixpoint write (l : list entry) (is : list Z) (f : Z) : option (list entry) :=
  match is with
  | [] => Some l
  | i :: r => match setz l i (Occ f) with Some l' => write l' r f | None => None end
  end.
Fixpoint from (start : Z) (n : nat) : list Z :=
  match n with O => [] | S n => start :: from (start + 1) n end.
(* 1759-1802; n entries, all with the flags f *)
Definition bulk_insert (k : kernel) (t : fdt) (n : Z) (f : Z) : out :=
  if n =? 0 then Val t (Fds [])
  else if MAXF <? cnt t + n then Val t (Err EMFILE)
  else
    let old := tlen (tab t) in
    let start := find_free_block t n in
    let new := if old <? start + n then start + n else old in
    let place (t : fdt) : out :=
      let is := from start (Z.to_nat n) in
      match write (tab t) is f with
      | Some l => Val (rebuild_free_list (with_cnt (with_tab t l) (w32 (cnt t + w32 n)))) (Fds is)
      | None => Unreach
      end in
    if old =? new then place t
    else
      match sync_size k t new with
      | inr e => Val t (Err e)
      | inl t => match resize t new with None => Nomem | Some t => place t end
      end.
(* 1697-1712 *)
Fixpoint validate_free (l : list entry) (seen : list Z) (hs : list Z) : option Z :=
  match hs with
  | [] => None
  | h :: r =>
      let h := strip_tags h in
      if MAXF <=? h then Some EMFILE
      else if existsb (Z.eqb h) seen then Some EBADF
      else match getz l h with Some (Occ _) => Some EEXIST | _ => validate_free l (h :: seen) r end
  end.
Definition maximum (l : list Z) : Z := fold_right Z.max 0 l.
(* 1837-1884: as many handles as entries *)
Definition bulk_insert_manual (k : kernel) (t : fdt) (hs : list Z) (f : Z) : out :=
  let n := size hs in
  if n =? 0 then Val t (Fds hs)
  else if MAXF <? cnt t + n then Val t (Err EMFILE)
  else
    match validate_free (tab t) [] hs with
    | Some e => Val t (Err e)
    | None =>
        let is := map strip_tags hs in
        let m := maximum is in
        let place (t : fdt) : out :=
          match write (tab t) is f with
          | Some l => Val (rebuild_free_list (with_cnt (with_tab t l) (w32 (cnt t + w32 n)))) (Fds hs)
          | None => Unreach
          end in
        if tlen (tab t) <=? m then
          match sync_size k t (m + 1) with
          | inr e => Val t (Err e)
          | inl t => match resize t (m + 1) with None => Nomem | Some t => place t end
          end
        else place t
    end.

(* 1231-1248, for a descriptor of the upper table *)
Definition fd_remove (t : fdt) (d : Z) : fdt * ans :=
  match remove t (strip_tags d) with
  | Some t => (with_active t (w64 (active t - 1)), Unit)
  | None => (t, Err EBADF)
  end.
(* 1077-1097 *)
Definition override_at (k : kernel) (t : fdt) (d : Z) : out :=
  let t := fst (fd_remove t d) in
  match insert_at k t (strip_tags d) 0 with
  | Val t (Fds _) => Val (with_active t (w64 (active t + 1))) (Fds [d])
  | r => r
  end.
(* 1111-1125, and the tag its callers add, 757, 813-816 *)
Definition insert_upper (k : kernel) (t : fdt) (fl : Z) : out :=
  if MAXF <=? active t then Val t (Err EMFILE)
  else
    match insert k t (w32 fl) with
    | Val t (Fds hs) => Val (with_active t (w64 (active t + 1))) (Fds (map tagged hs))
    | r => r
    end.
(* 1127-1146 *)
Definition insert_at_upper (k : kernel) (t : fdt) (d : Z) (fl : Z) : out :=
  if MAXF <=? active t then Val t (Err EMFILE)
  else if negb (is_upper d) then Val t (Err EINVAL)
  else
    match insert_at k t (strip_tags d) (w32 fl) with
    | Val t (Fds hs) => Val (with_active t (w64 (active t + 1))) (Fds hs)
    | r => r
    end.
(* 1148-1188, which = UPPER_FDTBL_TAG *)
Definition bulk_add (k : kernel) (t : fdt) (n : Z) (fl : Z) : out :=
  if n =? 0 then Val t (Fds [])
  else if MAXF <? active t + n then Val t (Err EMFILE)
  else
    match bulk_insert k t n (w32 fl) with
    | Val t (Fds hs) => Val (with_active t (w64 (active t + n))) (Fds (map tagged hs))
    | r => r
    end.
(* 1190-1229, which = UPPER_FDTBL_TAG: the answer is what is left in fd_slice *)
Definition fd_bulk_insert (k : kernel) (t : fdt) (fds : list Z) (fl : Z) : out :=
  let n := size fds in
  match fds with
  | [] => Val t (Fds [])
  | d :: _ =>
      if d =? 18446744073709551615 then bulk_add k t n fl
      else if MAXF <? active t + n then Val t (Err EMFILE)
      else
        match bulk_insert_manual k t fds (w32 fl) with
        | Val t (Fds hs) => Val (with_active t (w64 (active t + n))) (Fds hs)
        | r => r
        end
  end.
(* 1020-1036 *)
Definition get_fd_flags (t : fdt) (d : Z) : ans :=
  match get_flags t d with
  | Some f => Flags (if Z.land f CLOEXEC =? 0 then 0 else CLOEXEC)
  | None => Err EBADF
  end.
(* 1038-1053, 1626-1635 *)
Definition set_fd_flags (t : fdt) (d : Z) (raw : Z) : out :=
  match get_flags t d with
  | Some f =>
      let f' := Z.ldiff f CLOEXEC in
      let f' := if Z.land raw CLOEXEC =? 0 then f' else Z.lor f' CLOEXEC in
      match setz (tab t) (strip_tags d) (Occ f') with
      | Some l => Val (with_tab t l) Unit
      | None => Unreach
      end
  | None => Val t (Err EBADF)
  end.

Definition step (k : kernel) (t : fdt) (o : op) : out :=
  match o with
  | Insert fl => insert_upper k t fl
  | Override d => override_at k t d
  | Bulk fds fl => fd_bulk_insert k t fds fl
  | Remove d => let (t, a) := fd_remove t d in Val t a
  | GetFlags d => Val t (get_fd_flags t d)
  | SetFlags d raw => set_fd_flags t d raw
  (* add_posix 1098-1109 and remove 1240-1246, as far as active_count goes *)
  | OtherOpen => if MAXF <=? active t then Val t (Err EMFILE) else Val (with_active t (w64 (active t + 1))) Unit
  | OtherClose => Val (with_active t (w64 (active t - 1))) Unit
  end.

(* UpperFdTbl::new 1602-1608 in FdTbl::with_capacity 971-978 *)
Definition with_capacity : fdt := T [] 0 MAXF 0 true 0.
(* from_binary_fd 943-969: the table without a descriptor, resized to n (64) entries, and filled
   with the descriptors the kernel lists, populate 1012-1018; then the descriptor is set.  kt0
   is the size of the kernel's table, posix the number of descriptors of the POSIX table *)
Fixpoint populate (t : fdt) (ds : list Z) : option fdt :=
  match ds with
  | [] => Some t
  | d :: r => match override_at (fun _ => None) t d with Val t (Fds _) => populate t r | _ => None end
  end.
Definition from_kernel (kt0 posix : Z) (n : Z) (ds : list Z) : option fdt :=
  match resize (T [] 0 MAXF posix false kt0) n with
  | Some t => match populate t ds with
              | Some t => Some (T (tab t) (cnt t) (first t) (active t) true (kt t))
              | None => None
              end
  | None => None
  end.
End Table.

(* the process has no memory for the entries the operation needs *)
Definition short (cap : Z) (t : fdt) (o : op) : Prop :=
  match o with
  | Insert _ => cap < tlen (tab t) + 1
  | Override d => cap <= index d
  | Bulk (d :: r) _ =>
      if d =? 2 ^ 64 - 1 then cap < tlen (tab t) + size (d :: r) else exists x, In x (map named (d :: r)) /\ cap <= index x
  | _ => False
  end.
(* the tables a process can come to have: oth counts the POSIX table.  The kernel answers EINVAL
   only when its table has the size asked for already *)
Definition honest (k : kernel) (t : fdt) : Prop := forall n, k n = Some EINVAL -> n <= kt t.
Definition others (oth : Z) (o : op) (a : ans) : Z :=
  match o, a with OtherOpen, Unit => oth + 1 | OtherClose, _ => oth - 1 | _, _ => oth end.
Inductive reach (cap : Z) : Z -> fdt -> Prop :=
| reach_new : reach cap 0 with_capacity
| reach_kernel kt0 posix n ds t :
    0 <= posix <= MAXF -> 0 <= n <= kt0 -> (forall d, In d ds -> upper d /\ index d < kt0) ->
    from_kernel cap kt0 posix n ds = Some t -> reach cap posix t
| reach_step oth t k o t' a :
    reach cap oth t -> honest k t -> proper o -> (o = OtherClose -> 0 < oth) ->
    step cap k t o = Val t' a -> reach cap (others oth o a) t'.

(* what a user sees of the table: the flags behind each upper descriptor *)
Definition flags_of (t : fdt) : view := fun d =>
  if (0 <=? d) && (d <? 2 ^ 64) && Z.testbit d 62 then get_flags t d else None.

(* 1903-1912 with validate_handles 1680-1695 *)
Fixpoint validate (l : list entry) (seen : list Z) (hs : list Z) : bool :=
  match hs with
  | [] => true
  | h :: r =>
      let h := strip_tags h in
      if MAXF <=? h then false
      else if existsb (Z.eqb h) seen then false
      else match getz l h with Some (Occ _) => validate l (h :: seen) r | _ => false end
  end.
Fixpoint removes (t : fdt) (hs : list Z) : out :=
  match hs with
  | [] => Val t Unit
  | h :: r => match remove t h with Some t => removes t r | None => Unreach end
  end.
Definition bulk_remove (t : fdt) (hs : list Z) : out :=
  if validate (tab t) [] hs then removes t hs else Val t (Err EBADF).
