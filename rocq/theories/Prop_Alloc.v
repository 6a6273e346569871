(** C24, C55: size and alignment checks of the allocation interface.  Theorems only;
    lemmas are in Alloc_proofs.v.  [H] is the allocator behind the interface; nothing is
    assumed about it except where stated. *)
From Verif Require Import Base String_model Alloc_model Alloc_proofs.

Theorem C24_calloc_overflow : forall H m n s, USIZE_MAX < n * s ->
  calloc H m n s = Ok {| ptr := NULL; mm := m; errno := Some ENOMEM; asked := [] |}.
Proof. exact calloc_overflow. Qed.
Print Assumptions C24_calloc_overflow.

Theorem C24_calloc : forall H m n s m1 p, 0 <= n * s <= USIZE_MAX -> H m (Malloc (n * s)) = (m1, p) ->
  (p <> NULL -> mapped m1 p (n * s)) ->
  exists o, calloc H m n s = Ok o /\ asked o = [Malloc (n * s)] /\ ptr o = p /\
    (p = NULL -> errno o = Some ENOMEM /\ mm o = m1) /\
    (p <> NULL -> errno o = None /\ stored m1 (mm o) p (repeat 0 (Z.to_nat (n * s)))).
Proof. exact calloc_ok. Qed.
Print Assumptions C24_calloc.

(** On overflow nothing is asked of the allocator, so the old block is untouched. *)
Theorem C24_reallocarray : forall H m p a b,
  (USIZE_MAX < a * b -> reallocarray H m p a b = {| ptr := NULL; mm := m; errno := Some ENOMEM; asked := [] |}) /\
  (0 <= a * b <= USIZE_MAX -> forall r m1 q, r = (if p =? NULL then Malloc (a * b) else Realloc p (a * b)) -> H m r = (m1, q) ->
     asked (reallocarray H m p a b) = [r] /\ ptr (reallocarray H m p a b) = q /\ mm (reallocarray H m p a b) = m1 /\
     (q = NULL -> errno (reallocarray H m p a b) = Some ENOMEM)).
Proof. exact reallocarray_ok. Qed.
Print Assumptions C24_reallocarray.

(** 2^33 * 2^31 = 2^64 wraps to 0 in size_t; 2 * 3 does not. *)
Definition H_case : heap := fun m r => (mem_union m (mem_of 1000 (repeat 170 6)), 1000).
Example C24_case :
  match calloc H_case (fun _ => None) (2 ^ 33) (2 ^ 31) with Ok o => ptr o = NULL /\ asked o = [] | _ => False end /\
  match calloc H_case (fun _ => None) 2 3 with Ok o => ptr o = 1000 /\ map (mm o) [999;1000;1005;1006] = [None; Some 0; Some 0; None] | _ => False end /\
  ptr (reallocarray H_case (fun _ => None) 1000 (2 ^ 32) (2 ^ 32)) = NULL.
Proof. vm_compute. auto. Qed.

Theorem C55_memalign : forall H m align size m1 p, H m (Memalign align size) = (m1, p) ->
  (power2 align -> memalign H m align size =
     {| ptr := p; mm := m1; errno := if p =? NULL then Some ENOMEM else None; asked := [Memalign align size] |}) /\
  (~ power2 align -> memalign H m align size = {| ptr := NULL; mm := m; errno := Some EINVAL; asked := [] |}).
Proof. exact memalign_ok. Qed.
Print Assumptions C55_memalign.

Theorem C55_aligned_alloc : forall H m align size m1 p, 0 <= align -> 0 <= size -> H m (Memalign align size) = (m1, p) ->
  (power2 align -> (align | size) -> aligned_alloc H m align size =
     {| ptr := p; mm := m1; errno := if p =? NULL then Some ENOMEM else None; asked := [Memalign align size] |}) /\
  (~ (power2 align /\ (align | size)) ->
     aligned_alloc H m align size = {| ptr := NULL; mm := m; errno := Some EINVAL; asked := [] |}).
Proof. exact aligned_alloc_ok. Qed.
Print Assumptions C55_aligned_alloc.

Theorem C55_posix_memalign : forall H m align size m1 p, H m (Memalign align size) = (m1, p) ->
  (power2 align -> (8 | align) ->
     posix_memalign H m align size = ({| ptr := p; mm := m1; errno := None; asked := [Memalign align size] |}, if p =? NULL then ENOMEM else 0)) /\
  (~ (power2 align /\ (8 | align)) ->
     posix_memalign H m align size = ({| ptr := NULL; mm := m; errno := None; asked := [] |}, EINVAL)).
Proof. exact posix_memalign_ok. Qed.
Print Assumptions C55_posix_memalign.

Example C55_case : power2 64 /\ ptr (aligned_alloc H_case (fun _ => None) 64 128) = 1000 /\
  ptr (aligned_alloc H_case (fun _ => None) 48 96) = NULL /\ snd (posix_memalign H_case (fun _ => None) 4 96) = EINVAL.
Proof. split; [exists 6; split; [lia|reflexivity]|vm_compute; auto]. Qed.
