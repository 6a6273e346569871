(** Model of the size and alignment checks of the allocation interface (stdlib/mod.rs,
    platform/allocator/mod.rs).  The dlmalloc allocator itself is external: its answers
    are a parameter [H]. *)
From Verif Require Import Base String_model.

(** What is asked of dlmalloc (platform/allocator/mod.rs:83-97). *)
Inductive request := Malloc (size : Z) | Realloc (p size : Z) | Memalign (align size : Z).
(** dlmalloc: new memory and returned pointer *)
Definition heap := mem -> request -> mem * Z.
(** Result pointer, memory, errno if it was set, requests made of dlmalloc *)
Record outcome := { ptr : Z; mm : mem; errno : option Z; asked : list request }.
Definition ENOMEM : Z := 12.
Definition EINVAL : Z := 22.

(** mod.rs:702-709 *)
Definition malloc (H : heap) (m : mem) (size : Z) : outcome :=
  let '(m1, p) := H m (Malloc size) in
  {| ptr := p; mm := m1; errno := if p =? NULL then Some ENOMEM else None; asked := [Malloc size] |}.
(** usize::checked_mul *)
Definition checked_mul (a b : Z) : option Z := if a * b <=? USIZE_MAX then Some (a * b) else None.
(** mod.rs:273-291 *)
Definition calloc (H : heap) (m : mem) (nelem elsize : Z) : res outcome :=
  match checked_mul nelem elsize with
  | Some size =>
      let o := malloc H m size in
      if ptr o =? NULL then Ok o
      else m' <- fill (Z.to_nat size) (mm o) (ptr o) 0 ;;
           Ok {| ptr := ptr o; mm := m'; errno := errno o; asked := asked o |}
  | None => Ok {| ptr := NULL; mm := m; errno := Some ENOMEM; asked := [] |}
  end.
(** mod.rs:1198-1205; platform/allocator/mod.rs:91-97 *)
Definition realloc (H : heap) (m : mem) (p size : Z) : outcome :=
  let r := if p =? NULL then Malloc size else Realloc p size in
  let '(m1, q) := H m r in
  {| ptr := q; mm := m1; errno := if q =? NULL then Some ENOMEM else None; asked := [r] |}.
(** mod.rs:1208-1219 *)
Definition reallocarray (H : heap) (m : mem) (p a b : Z) : outcome :=
  match checked_mul a b with
  | Some size => realloc H m p size
  | None => {| ptr := NULL; mm := m; errno := Some ENOMEM; asked := [] |}
  end.

(** usize::is_power_of_two: count_ones() == 1 *)
Fixpoint pos_ones (p : positive) : nat :=
  match p with xH => 1 | xO q => pos_ones q | xI q => S (pos_ones q) end.
Definition is_power_of_two (a : Z) : bool :=
  match a with Zpos p => Nat.eqb (pos_ones p) 1 | _ => false end.
(** mod.rs:714-725 *)
Definition memalign (H : heap) (m : mem) (align size : Z) : outcome :=
  if is_power_of_two align then
    let '(m1, p) := H m (Memalign align size) in
    {| ptr := p; mm := m1; errno := if p =? NULL then Some ENOMEM else None; asked := [Memalign align size] |}
  else {| ptr := NULL; mm := m; errno := Some EINVAL; asked := [] |}.
(** usize::is_multiple_of: rhs == 0 => self == 0; otherwise self % rhs == 0 *)
Definition is_multiple_of (a b : Z) : bool := if b =? 0 then a =? 0 else a mod b =? 0.
(** mod.rs:146-157 *)
Definition aligned_alloc (H : heap) (m : mem) (align size : Z) : outcome :=
  if (align =? 0) || negb (is_multiple_of size align)
  then {| ptr := NULL; mm := m; errno := Some EINVAL; asked := [] |}
  else memalign H m align size.
(** mod.rs:919-934; returns the stored pointer in [ptr] and the return value separately;
    the store through memptr is not in [mm] *)
Definition posix_memalign (H : heap) (m : mem) (align size : Z) : outcome * Z :=
  if is_multiple_of align 8 && is_power_of_two align then
    let '(m1, p) := H m (Memalign align size) in
    ({| ptr := p; mm := m1; errno := None; asked := [Memalign align size] |}, if p =? NULL then ENOMEM else 0)
  else ({| ptr := NULL; mm := m; errno := None; asked := [] |}, EINVAL).
